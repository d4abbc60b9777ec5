(** Exactly which inputs are recovered by the reversed curves, for all parameters. *)
From Coq Require Import Reals Lra ZArith Lia.
From Verif Require Import M_Base M_Curve M_CurveReal S_Curve S_Curve2 S_Jump S_Undo P_Curve P_Curve2 P_Formula P_Jump P_Jump2.
Open Scope R_scope.

Lemma at_value t ps r v : eval_real t ps r = Some (Fin v) -> (undoes t ps r <-> eval_real (- t) ps v = Some (Fin r)).
Proof.
  intros E. split; [|intros H; now exists v]. intros (y & Y & H). rewrite E in Y. injection Y as <-. exact H.
Qed.
Lemma no_value t ps r : (forall y, eval_real t ps r <> Some (Fin y)) -> ~ undoes t ps r.
Proof. intros H (y & Y & _). exact (H y Y). Qed.
Lemma fin_iff u v : Some (Fin u) = Some (Fin v) <-> u = v.
Proof. split; [intros H; now injection H|now intros ->]. Qed.
Lemma inv_of_line a b r v : a <> 0 -> ((v - b) / a = r <-> v = a * r + b).
Proof. intros A. split; [intros <-; now field|intros ->; now field]. Qed.
Lemma pow_e0 z : ext_pow z (Fin 0) = Fin 1.
Proof. destruct z; cbn [ext_pow]; now rewrite Reqb_t. Qed.
Lemma one_inf : ext_pow (Fin 1) PInf = Fin 1.
Proof. rewrite pow_inf by lra. destruct (Req_EM_T 1 1); [reflexivity|lra]. Qed.
Lemma zero_inf : ext_pow (Fin 0) PInf = Fin 0.
Proof. rewrite pow_inf by lra. destruct (Req_EM_T 0 1); [lra|]. destruct (Rlt_dec 0 1); [reflexivity|lra]. Qed.
Lemma sub_div_inf s b a y : (s = PInf \/ s = NInf) -> ext_div (ext_sub s (Fin b)) (Fin a) <> Fin y.
Proof. intros [-> | ->]; cbn [ext_sub ext_neg ext_add ext_div]; destruct (Rltb a 0); discriminate. Qed.
Lemma inv_pos g : 0 < g -> 0 < 1 / g. Proof. intros G. apply Rdiv_lt_0_compat; lra. Qed.

(** ** Type 1 *)
Lemma undo1 g r :
  undoes 1 [g] r <-> (0 < r /\ (tol <= Rabs g \/ r = 10 ^ 22)) \/ (r = 0 /\ tol <= g) \/ (r < 0 /\ Rabs (g - 1) < tol).
Proof.
  pose proof tol_pos as T.
  assert (SMALL : forall y, 0 <= y -> Rabs g < tol -> eval_real (-1) [g] y = Some (Fin (10 ^ 22))).
  { intros y Y S. ev. rewrite Rltb_f by exact Y. now rewrite Rltb_t by exact S. }
  destruct (Rtotal_order r 0) as [L|[->|L]].
  - destruct (type1_negative g r L) as (F & B). rewrite (at_value 1 [g] r _ F). change (- (1))%Z with (-1)%Z.
    destruct (Rlt_dec (Rabs g) (1 + tol)) as [S|S].
    + rewrite B. rewrite fin_iff. destruct (Rlt_dec (Rabs (g - 1)) tol); [split; [intros _; right; right; tauto|reflexivity]|split; lra].
    + split; [|intros [H|[H|(_ & H)]]; [lra|lra|exfalso; apply S; unfold Rabs in *; destruct (Rcase_abs g), (Rcase_abs (g - 1)); lra]].
      intros H. exfalso. assert (NG : g <> 0) by (intros ->; rewrite Rabs_R0 in S; lra). revert H. ev. rewrite Rltb_f by lra. rewrite small_abs by lra.
      rewrite div_fin by exact NG. destruct (Rlt_dec 0 g) as [P|P].
      * rewrite pow_fin0 by (lra || now apply inv_pos). rewrite power_0, fin_iff. lra.
      * rewrite pow0_neg by (apply neg_inv; lra). discriminate.
  - destruct (Rtotal_order g 0) as [G|[->|G]].
    + split; [|intros [H|[H|H]]; lra]. intros H. exfalso. revert H. apply no_value. intros y. ev. rewrite Rltb_f by lra. rewrite pow0_neg by exact G. discriminate.
    + split; [|intros [H|[H|H]]; lra]. intros H. exfalso. revert H. rewrite (at_value 1 [0] 0 1); [|ev; rewrite Rltb_f by lra; now rewrite pow_e0].
      change (- (1))%Z with (-1)%Z. rewrite SMALL by (rewrite ?Rabs_R0; lra). rewrite fin_iff. assert (0 < 10 ^ 22) by (apply pow_lt; lra). lra.
    + rewrite (at_value 1 [g] 0 0). 2:{ rewrite type1_val by (right; lra). now rewrite power_0. } change (- (1))%Z with (-1)%Z.
      destruct (Rlt_dec g tol) as [S|S].
      * rewrite SMALL by (rewrite ?Rabs_right; lra). rewrite fin_iff. assert (0 < 10 ^ 22) by (apply pow_lt; lra). split; [lra|intros [Q|[Q|Q]]; lra].
      * split; [intros _; right; left; lra|]. intros _. ev. rewrite Rltb_f by lra. rewrite small_abs by (apply abs_ge_pos; lra). rewrite div_fin by lra.
        rewrite pow_fin0 by (lra || now apply inv_pos). now rewrite power_0.
  - rewrite (at_value 1 [g] r (power r g)) by (apply type1_val; now left). change (- (1))%Z with (-1)%Z. destruct (Rlt_dec (Rabs g) tol) as [S|S].
    + rewrite SMALL by (apply power_ge0 || assumption). rewrite fin_iff. split; [intros <-; left; split; [exact L|now right]|]. intros [(_ & [H|H])|[H|H]]; (lra || now symmetry).
    + split; [intros _; left; split; [exact L|left; lra]|]. intros _. destruct (type1_inverse g r ltac:(lra) ltac:(now left)) as (y & _ & -> & H). exact H.
Qed.

(** ** Type 2 *)
Lemma undo2 g a b r :
  undoes 2 [g; a; b] r <->
  (~ usable g a /\ r = 0) \/
  (usable g a /\
   ((0 < a /\ 0 < a * r + b /\ 0 <= r) \/
    ((a < 0 \/ a * r + b <= 0) /\ ((0 < g /\ r = Rmax 0 (- b / a)) \/ (g < 0 /\ a < 0 /\ r = 0))))).
Proof.
  pose proof tol_pos as T. destruct (usable_dec g a) as [U|U].
  2:{ assert (NU : ~ usable g a) by (unfold usable; lra).
      assert (B : forall y, eval_real (-2) [g; a; b] y = Some (Fin 0)).
      { intros y. ev. destruct U as [U|U]; rewrite (Rltb_t _ _ U); rewrite ?orb_true_r; reflexivity. }
      destruct (type2_never_negative g a b r) as (y & Y & _). rewrite (at_value 2 _ r y Y). change (- (2))%Z with (-2)%Z. rewrite B, fin_iff.
      split; [intros <-; left; tauto|]. intros [(_ & ->)|(H & _)]; [reflexivity|contradiction]. }
  destruct (usable_nz g a U) as (NG & NA). destruct U as (UG & UA).
  assert (ZERO : forall y, 0 < g -> 0 <= y -> eval_real (-2) [g; a; b] y = Some (Fin (Rmax 0 ((power y (1 / g) - b) / a)))).
  { intros y G Y. ev. rewrite !small_abs by assumption. cbn [orb]. rewrite Rltb_f by exact Y. rewrite div_fin by exact NG.
    rewrite pow_fin0 by (assumption || now apply inv_pos). ar. rewrite div_fin by exact NA. ar. destruct (Rlt_dec ((power y (1 / g) - b) / a) 0) as [Q|Q].
    - rewrite Rltb_t by exact Q. now rewrite Rmax_left by lra.
    - rewrite Rltb_f by lra. now rewrite Rmax_right by lra. }
  assert (FLAT : a < 0 \/ a * r + b <= 0 -> eval_real 2 [g; a; b] r = Some (Fin 0)).
  { intros H. destruct (Rlt_dec a 0) as [N|N].
    - apply type2_negative_slope. rewrite Rabs_left in UA by exact N. lra.
    - rewrite Rabs_right in UA by lra. rewrite type2_any by exact UA. unfold icc2. destruct (Rle_dec (- b / a) r) as [Q|Q]; [|reflexivity].
      assert (Z : a * r + b = 0).
      { destruct H as [H|H]; [lra|]. assert (a * (- b / a) <= a * r) by (apply Rmult_le_compat_l; lra). replace (a * (- b / a)) with (- b) in H0 by (now field). lra. }
      rewrite Z, power_0. reflexivity. }
  assert (LAST : a < 0 \/ a * r + b <= 0 -> (undoes 2 [g; a; b] r <-> (0 < g /\ r = Rmax 0 (- b / a)) \/ (g < 0 /\ a < 0 /\ r = 0))).
  { intros H. rewrite (at_value 2 _ r 0 (FLAT H)). change (- (2))%Z with (-2)%Z. destruct (Rlt_dec 0 g) as [G|G].
    - rewrite ZERO by lra. rewrite power_0, fin_iff. replace ((0 - b) / a) with (- b / a) by (now field). split; [intros <-; left; tauto|]. intros [(_ & ->)|Q]; [reflexivity|lra].
    - ev. rewrite !small_abs by assumption. cbn [orb]. rewrite Rltb_f by lra. rewrite div_fin by exact NG. rewrite pow0_neg by (apply neg_inv; lra).
      cbn [ext_sub ext_neg ext_add ext_div]. destruct (Rlt_dec a 0) as [A|A].
      + rewrite (Rltb_t a) by exact A. cbn [ext_lt]. rewrite fin_iff. split; [intros <-; right; lra|]. intros [Q|Q]; lra.
      + rewrite (Rltb_f a) by lra. cbn [ext_lt]. split; [discriminate|]. intros [Q|Q]; lra. }
  unfold usable. destruct (Rlt_dec a 0) as [N|N].
  { rewrite LAST by now left. split.
    - intros H. right. split; [tauto|]. right. tauto.
    - intros [(H & _)|(_ & [H|(_ & H)])]; [tauto|lra|exact H]. }
  destruct (Rle_dec (a * r + b) 0) as [E|E].
  { rewrite LAST by now right. split.
    - intros H. right. split; [tauto|]. right. tauto.
    - intros [(H & _)|(_ & [H|(_ & H)])]; [tauto|lra|exact H]. }
  assert (A : tol <= a) by (rewrite Rabs_right in UA by lra; lra). assert (EP : 0 < a * r + b) by lra.
  assert (V : eval_real 2 [g; a; b] r = Some (Fin (power (a * r + b) g))).
  { rewrite type2_any by exact A. unfold icc2. destruct (Rle_dec (- b / a) r) as [Q|Q]; [reflexivity|]. exfalso. apply Q.
    apply Rmult_le_reg_l with a; [lra|]. replace (a * (- b / a)) with (- b) by (now field). lra. }
  rewrite (at_value 2 _ r _ V). change (- (2))%Z with (-2)%Z. ev. rewrite !small_abs by assumption. cbn [orb]. rewrite Rltb_f by apply power_ge0.
  rewrite div_fin by exact NG. rewrite pow_fin by (now apply power_gt0). rewrite power_undo by lra. ar. rewrite div_fin by exact NA.
  replace ((a * r + b - b) / a) with r by (now field). ar. destruct (Rlt_dec r 0) as [Q|Q].
  - rewrite Rltb_t by exact Q. rewrite fin_iff. split; [lra|]. intros [(H & _)|(_ & [H|(H & _)])]; [tauto|lra|lra].
  - rewrite Rltb_f by lra. split; [|reflexivity]. intros _. right. split; [tauto|]. left. lra.
Qed.

(** ** Type 3 *)
Lemma disc3 a b r : a <> 0 -> Rmax (- b / a) 0 <= r -> 0 < a -> 0 <= a * r + b.
Proof.
  intros NA H A. pose proof (Rmax_l (- b / a) 0). assert (a * (- b / a) <= a * r) by (apply Rmult_le_compat_l; lra). replace (a * (- b / a)) with (- b) in H1 by (now field). lra.
Qed.
Lemma undo3 g a b c r :
  undoes 3 [g; a; b; c] r <->
  (Rabs a < tol /\ r = 0) \/
  (tol <= Rabs a /\
   ((r < Rmax (- b / a) 0 /\ r = 0) \/
    (Rmax (- b / a) 0 <= r /\
     ((0 < a * r + b /\ (g <> 0 \/ a * r + b = 1)) \/
      (a * r + b <= 0 /\ ((c = 0 /\ r = 0) \/ (a * r + b = 0 /\ (0 < c \/ (g = 0 /\ -1 < c < 0))))))))).
Proof.
  pose proof tol_pos as T. destruct (Rlt_dec (Rabs a) tol) as [S|S].
  { rewrite (at_value 3 _ r 0) by (ev; now rewrite Rltb_t by exact S). change (- (3))%Z with (-3)%Z.
    assert (B : eval_real (-3) [g; a; b; c] 0 = Some (Fin 0)) by (ev; now rewrite (Rltb_t (Rabs a)) by exact S). rewrite B, fin_iff.
    split; [intros <-; left; tauto|]. intros [(_ & ->)|(H & _)]; [reflexivity|lra]. }
  assert (UA : tol <= Rabs a) by lra. pose proof (abs_nz a UA) as NA.
  assert (FW : eval_real 3 [g; a; b; c] r =
    Some (if Rlt_dec r (Rmax (- b / a) 0) then Fin c else if Rlt_dec 0 (a * r + b) then Fin (power (a * r + b) g + c) else Fin 0)).
  { ev. rewrite small_abs by exact UA. rewrite div_fin by exact NA. rewrite max_fin. ar. destruct (Rlt_dec r (Rmax (- b / a) 0)) as [L|L].
    - now rewrite (Rltb_t r) by exact L.
    - rewrite (Rltb_f r) by lra. cbn [negb]. destruct (Rlt_dec 0 (a * r + b)) as [P|P]; [rewrite (Rltb_t 0) by exact P; now rewrite pow_fin by exact P|now rewrite (Rltb_f 0) by lra]. }
  assert (UP : forall y, c < y -> eval_real (-3) [g; a; b; c] y =
    Some (ext_div (ext_sub (ext_pow (Fin (y - c)) (ext_div (Fin 1) (Fin g))) (Fin b)) (Fin a))).
  { intros y Y. ev. rewrite small_abs by exact UA. rewrite (Rltb_f y) by lra. cbn [negb]. now rewrite Rltb_t by lra. }
  assert (ATC : eval_real (-3) [g; a; b; c] c = Some (Fin 0)).
  { ev. rewrite small_abs by exact UA. rewrite (Rltb_f c) by lra. cbn [negb]. now rewrite Rltb_f by lra. }
  assert (DOWN : forall y, y < c -> eval_real (-3) [g; a; b; c] y = Some (Fin (- b / a))).
  { intros y Y. ev. rewrite small_abs by exact UA. rewrite (Rltb_t y) by exact Y. cbn [negb]. now rewrite div_fin by exact NA. }
  destruct (Rlt_dec r (Rmax (- b / a) 0)) as [L|L].
  { rewrite (at_value 3 _ r c FW). change (- (3))%Z with (-3)%Z. rewrite ATC, fin_iff. split; [intros <-; right; split; [exact UA|left; split; [exact L|reflexivity]]|].
    intros [(H & _)|(_ & [(_ & ->)|(H & _)])]; (lra || reflexivity). }
  destruct (Rlt_dec 0 (a * r + b)) as [P|P].
  { rewrite (at_value 3 _ r _ FW). change (- (3))%Z with (-3)%Z. pose proof (power_gt0 (a * r + b) g P) as PP. rewrite UP by lra.
    replace (power (a * r + b) g + c - c) with (power (a * r + b) g) by ring. destruct (Req_dec g 0) as [->|NG].
    - rewrite inv0. assert (P1 : power (a * r + b) 0 = 1) by (rewrite power_pos by exact P; unfold Rpower; rewrite Rmult_0_l; apply exp_0).
      rewrite P1, one_inf. ar. rewrite div_fin by exact NA. rewrite fin_iff, inv_of_line by exact NA. split.
      + intros H. right. split; [exact UA|]. right. split; [lra|]. left. split; [exact P|]. right. lra.
      + intros [(H & _)|(_ & [(H & _)|(_ & [(_ & [H|H])|(H & _)])])]; lra.
    - rewrite (div_fin 1) by exact NG. rewrite pow_fin by exact PP. rewrite power_undo by lra. ar. rewrite div_fin by exact NA.
      replace ((a * r + b - b) / a) with r by (now field). split; [|reflexivity]. intros _. right. split; [exact UA|]. right. split; [lra|]. left. split; [exact P|]. now left. }
  rewrite (at_value 3 _ r 0 FW). change (- (3))%Z with (-3)%Z.
  assert (IFF : (a * r + b <= 0 /\ ((c = 0 /\ r = 0) \/ (a * r + b = 0 /\ (0 < c \/ (g = 0 /\ -1 < c < 0))))) <->
    (Rabs a < tol /\ r = 0) \/
    (tol <= Rabs a /\
     ((r < Rmax (- b / a) 0 /\ r = 0) \/
      (Rmax (- b / a) 0 <= r /\
       ((0 < a * r + b /\ (g <> 0 \/ a * r + b = 1)) \/
        (a * r + b <= 0 /\ ((c = 0 /\ r = 0) \/ (a * r + b = 0 /\ (0 < c \/ (g = 0 /\ -1 < c < 0)))))))))).
  { split.
    - intros H. right. split; [exact UA|]. right. split; [lra|]. right. exact H.
    - intros [(H & _)|(_ & [(H & _)|(_ & [(H & _)|H])])]; (lra || exact H). }
  rewrite <- IFF. clear IFF. destruct (Rtotal_order c 0) as [C|[C|C]].
  - rewrite UP by exact C. rewrite Rminus_0_l. destruct (Req_dec g 0) as [->|NG].
    + rewrite inv0, pow_inf by lra. destruct (Req_EM_T (- c) 1) as [C1|C1]; [|destruct (Rlt_dec (- c) 1) as [C2|C2]].
      * ar. rewrite div_fin by exact NA. rewrite fin_iff, inv_of_line by exact NA. split; [lra|]. intros (_ & [H|(_ & [H|H])]); lra.
      * ar. rewrite div_fin by exact NA. rewrite fin_iff, inv_of_line by exact NA. split; [intros H; split; [lra|]; right; split; [lra|]; right; split; [reflexivity|lra]|].
        intros (_ & [H|(H & _)]); lra.
      * split; [intros H; apply some_eq in H; exfalso; revert H; apply sub_div_inf; now left|]. intros (_ & [H|(_ & [H|H])]); lra.
    + rewrite (div_fin 1) by exact NG. rewrite pow_fin by lra. ar. rewrite div_fin by exact NA. rewrite fin_iff, inv_of_line by exact NA.
      pose proof (power_gt0 (- c) (1 / g) ltac:(lra)). split; [lra|]. intros (_ & [Q|(_ & [Q|Q])]); lra.
  - subst c. rewrite ATC, fin_iff. split; [intros <-; split; [lra|]; left; tauto|]. intros (_ & [(_ & H)|(_ & [H|H])]); lra.
  - rewrite DOWN by exact C. rewrite fin_iff. replace (- b / a) with ((0 - b) / a) by (now field). rewrite inv_of_line by exact NA. split; [intros H; split; [lra|]; right; split; [lra|]; now left|].
    intros (_ & [(H & _)|(H & _)]); lra.
Qed.

(** ** Type 6 *)
Lemma undo6 g a b c r :
  undoes 6 [g; a; b; c] r <->
  (Rabs a < tol /\ r = 0 /\ (b = 0 -> 0 <= g)) \/
  (tol <= Rabs a /\ ((a * r + b = 0 /\ 0 < g) \/ (0 < a * r + b /\ (g <> 0 \/ a * r + b = 1)))).
Proof.
  pose proof tol_pos as T.
  assert (FW : eval_real 6 [g; a; b; c] r = Some (if Rlt_dec (a * r + b) 0 then Fin c else ext_add (ext_pow (Fin (a * r + b)) (Fin g)) (Fin c))).
  { ev. destruct (Rlt_dec (a * r + b) 0) as [P|P]; [now rewrite Rltb_t|now rewrite Rltb_f by lra]. }
  destruct (Rlt_dec (Rabs a) tol) as [S|S].
  { assert (B : forall y, eval_real (-6) [g; a; b; c] y = Some (Fin 0)) by (intros y; ev; now rewrite (Rltb_t (Rabs a)) by exact S).
    assert (H : undoes 6 [g; a; b; c] r <-> r = 0 /\ exists y, eval_real 6 [g; a; b; c] 0 = Some (Fin y)).
    { split.
      - intros (y & Y & R). change (- (6))%Z with (-6)%Z in R. rewrite B in R. injection R as <-. split; [reflexivity|now exists y].
      - intros (-> & y & Y). exists y. split; [exact Y|]. apply B. }
    rewrite H. clear H. split.
    - intros (-> & y & Y). left. split; [exact S|]. split; [reflexivity|]. intros Z. destruct (Rlt_dec g 0) as [G|G]; [exfalso|lra].
      rewrite FW in Y. replace (a * 0 + b) with 0 in Y by lra. destruct (Rlt_dec 0 0); [lra|]. rewrite pow0_neg in Y by exact G. discriminate.
    - intros [(_ & -> & Z)|(H & _)]; [|lra]. split; [reflexivity|]. rewrite FW. replace (a * 0 + b) with b by ring. destruct (Rlt_dec b 0); [now exists c|].
      destruct (Rlt_dec 0 b) as [P|P]; [rewrite pow_fin by exact P; eexists; reflexivity|]. assert (b = 0) by lra. subst b. specialize (Z eq_refl).
      destruct (Req_dec g 0) as [->|NG]; [rewrite pow_e0; eexists; reflexivity|]. rewrite pow_fin0 by lra. eexists; reflexivity. }
  assert (UA : tol <= Rabs a) by lra. pose proof (abs_nz a UA) as NA.
  assert (UP : forall y, c <= y -> eval_real (-6) [g; a; b; c] y =
    Some (ext_div (ext_sub (ext_pow (Fin (y - c)) (ext_div (Fin 1) (Fin g))) (Fin b)) (Fin a))).
  { intros y Y. ev. rewrite small_abs by exact UA. now rewrite (Rltb_f (y - c)) by lra. }
  destruct (Rtotal_order (a * r + b) 0) as [L|[Z|L]].
  - destruct (Rlt_dec (a * r + b) 0); [|lra]. rewrite (at_value 6 _ r c FW). change (- (6))%Z with (-6)%Z. rewrite UP by lra. replace (c - c) with 0 by ring.
    split; [|intros [H|(_ & [H|H])]; lra]. intros H. exfalso. revert H. destruct (Rtotal_order g 0) as [G|[->|G]].
    + rewrite (div_fin 1) by lra. rewrite pow0_neg by now apply neg_inv. intros H. apply some_eq in H. revert H. apply sub_div_inf. now left.
    + rewrite inv0, zero_inf. ar. rewrite div_fin by exact NA. rewrite fin_iff, inv_of_line by exact NA. lra.
    + rewrite (div_fin 1) by lra. rewrite pow_fin0 by (lra || now apply inv_pos). rewrite power_0. ar. rewrite div_fin by exact NA. rewrite fin_iff, inv_of_line by exact NA. lra.
  - destruct (Rlt_dec (a * r + b) 0); [lra|]. rewrite Z in FW. destruct (Rtotal_order g 0) as [G|[->|G]].
    + split; [|intros [H|(_ & [H|H])]; lra]. intros H. exfalso. revert H. apply no_value. intros y. rewrite FW, pow0_neg by exact G. discriminate.
    + rewrite pow_e0 in FW. rewrite add_fin in FW. rewrite (at_value 6 _ r _ FW). change (- (6))%Z with (-6)%Z. rewrite UP by lra. replace (1 + c - c) with 1 by ring.
      rewrite inv0, one_inf. ar. rewrite div_fin by exact NA. rewrite fin_iff, inv_of_line by exact NA. split; [lra|intros [H|(_ & [H|H])]; lra].
    + split; [intros _; right; split; [exact UA|left; tauto]|]. intros _. destruct (type6_inverse g a b c r UA ltac:(right; tauto)) as (y & Y & _ & H). now exists y.
  - destruct (Rlt_dec (a * r + b) 0); [lra|]. destruct (Req_dec g 0) as [->|NG].
    + rewrite pow_e0 in FW. rewrite add_fin in FW. rewrite (at_value 6 _ r _ FW). change (- (6))%Z with (-6)%Z. rewrite UP by lra. replace (1 + c - c) with 1 by ring.
      rewrite inv0, one_inf. ar. rewrite div_fin by exact NA. rewrite fin_iff, inv_of_line by exact NA. split.
      * intros H. right. split; [exact UA|]. right. split; [exact L|]. right. lra.
      * intros [H|(_ & [H|(_ & [H|H])])]; lra.
    + split; [intros _; right; split; [exact UA|right; tauto]|]. intros _. destruct (type6_inverse g a b c r UA ltac:(left; tauto)) as (y & Y & _ & H). now exists y.
Qed.

(** ** Types 4 and 5, for parameters in the usual ranges *)
Lemma undo5 g a b c d e f r : tol <= g -> tol <= a -> tol <= c ->
  (undoes 5 [g; a; b; c; d; e; f] r <-> r < d \/ (0 <= a * r + b /\ c * d + f <= power (a * r + b) g + e)).
Proof.
  intros G A C. pose proof tol_pos as T. assert (NA : a <> 0) by lra. assert (NC : c <> 0) by lra.
  assert (LINE : forall y, y < c * d + f -> eval_real (-5) [g; a; b; c; d; e; f] y = Some (Fin ((y - f) / c))).
  { intros y Y. ev. rewrite (Rltb_t y) by exact Y. cbn [negb]. rewrite small_abs by (now apply abs_ge_pos). now rewrite div_fin by exact NC. }
  assert (POW : forall y, c * d + f <= y -> e <= y -> eval_real (-5) [g; a; b; c; d; e; f] y = Some (Fin ((power (y - e) (1 / g) - b) / a))).
  { intros y Y1 Y2. ev. rewrite (Rltb_f y) by exact Y1. cbn [negb]. rewrite Rltb_f by lra. rewrite !small_abs by (now apply abs_ge_pos). cbn [orb].
    rewrite (div_fin 1) by lra. rewrite pow_fin0 by (lra || (apply inv_pos; lra)). ar. now rewrite div_fin by exact NA. }
  destruct (Rlt_dec r d) as [L|L].
  { rewrite (at_value 5 _ r (r * c + f)) by (ev; now rewrite Rltb_t by exact L). change (- (5))%Z with (-5)%Z.
    assert (0 < c * (d - r)) by (apply Rmult_lt_0_compat; lra). rewrite LINE by lra. rewrite fin_iff. split; [intros _; now left|]. intros _. now field. }
  assert (MORE : c * d <= c * r) by (apply Rmult_le_compat_l; lra).
  assert (FW : eval_real 5 [g; a; b; c; d; e; f] r = Some (Fin (if Rlt_dec 0 (a * r + b) then power (a * r + b) g + e else e))).
  { ev. rewrite (Rltb_f r) by lra. cbn [negb]. destruct (Rlt_dec 0 (a * r + b)) as [P|P]; [rewrite (Rltb_t 0) by exact P; now rewrite pow_fin by exact P|now rewrite (Rltb_f 0) by lra]. }
  assert (BELOW : forall y, y < c * d + f -> eval_real (-5) [g; a; b; c; d; e; f] y <> Some (Fin r)).
  { intros y Y. rewrite LINE by exact Y. rewrite fin_iff, inv_of_line by exact NC. lra. }
  rewrite (at_value 5 _ r _ FW). change (- (5))%Z with (-5)%Z. destruct (Rlt_dec 0 (a * r + b)) as [P|P].
  - pose proof (power_gt0 (a * r + b) g P) as PP. destruct (Rle_dec (c * d + f) (power (a * r + b) g + e)) as [Q|Q].
    + rewrite POW by lra. replace (power (a * r + b) g + e - e) with (power (a * r + b) g) by ring. rewrite power_undo by lra. rewrite fin_iff.
      split; [intros _; right; lra|]. intros _. now field.
    + split; [|intros [H|(_ & H)]; lra]. intros H. exfalso. revert H. apply BELOW. lra.
  - destruct (Rle_dec (c * d + f) e) as [Q|Q].
    + rewrite POW by lra. replace (e - e) with 0 by ring. rewrite power_0, fin_iff, inv_of_line by exact NA. split.
      * intros H. right. rewrite <- H, power_0. lra.
      * intros [H|(H & _)]; lra.
    + split; [intros H; exfalso; revert H; apply BELOW; lra|]. intros [H|(H1 & H2)]; [lra|]. assert (Z : a * r + b = 0) by lra. rewrite Z, power_0 in H2. lra.
Qed.
Lemma undo4 g a b c d r : tol <= g -> tol <= a -> tol <= c ->
  (undoes 4 [g; a; b; c; d] r <-> (r < d /\ c * r < break_value g a b d) \/ (d <= r /\ 0 <= a * r + b)).
Proof.
  intros G A C. pose proof tol_pos as T. assert (NA : a <> 0) by lra. assert (NC : c <> 0) by lra.
  set (B := break_value g a b d). assert (B0 : 0 <= B) by apply power_ge0.
  assert (DISC : (if Rltb (a * d + b) 0 then Fin 0 else ext_pow (Fin (a * d + b)) (Fin g)) = Fin B).
  { unfold B, break_value. destruct (Rlt_dec (a * d + b) 0) as [P|P].
    - rewrite Rltb_t by exact P. rewrite Rmax_left by lra. now rewrite power_0.
    - rewrite Rltb_f by lra. rewrite pow_fin0 by lra. now rewrite Rmax_right by lra. }
  assert (LINE : forall y, y < B -> eval_real (-4) [g; a; b; c; d] y = Some (Fin (y / c))).
  { intros y Y. ev. rewrite DISC. ar. rewrite (Rltb_t y) by exact Y. cbn [negb]. rewrite small_abs by (now apply abs_ge_pos). now rewrite div_fin by exact NC. }
  assert (POW : forall y, B <= y -> eval_real (-4) [g; a; b; c; d] y = Some (Fin ((power y (1 / g) - b) / a))).
  { intros y Y. ev. rewrite DISC. ar. rewrite (Rltb_f y) by exact Y. cbn [negb]. rewrite !small_abs by (now apply abs_ge_pos). cbn [orb].
    rewrite (div_fin 1) by lra. rewrite pow_fin0 by (lra || (apply inv_pos; lra)). ar. now rewrite div_fin by exact NA. }
  assert (MONO : forall u v, u < v -> a * u < a * v) by (intros u v L; apply Rmult_lt_compat_l; lra).
  destruct (Rlt_dec r d) as [L|L].
  - rewrite (at_value 4 _ r (r * c)) by (ev; now rewrite Rltb_t by exact L). change (- (4))%Z with (-4)%Z. destruct (Rlt_dec (c * r) B) as [Q|Q].
    + rewrite LINE by lra. rewrite fin_iff. split; [intros _; left; tauto|]. intros _. now field.
    + rewrite POW by lra. rewrite fin_iff, inv_of_line by exact NA. split; [|intros [H|H]; lra]. intros H. exfalso.
      pose proof (power_ge0 (r * c) (1 / g)) as P0. specialize (MONO r d L). assert (P : 0 < a * d + b) by lra.
      assert (BV : B = power (a * d + b) g) by (unfold B, break_value; now rewrite Rmax_right by lra).
      assert (power (a * r + b) g < power (a * d + b) g) by (apply power_lt; lra).
      assert (RC : power (a * r + b) g = r * c) by (rewrite <- H; apply power_undo'; lra). lra.
  - assert (M : a * d <= a * r) by (apply Rmult_le_compat_l; lra). destruct (Rle_dec 0 (a * r + b)) as [P|P].
    + assert (V : eval_real 4 [g; a; b; c; d] r = Some (Fin (power (a * r + b) g))).
      { ev. rewrite (Rltb_f r) by lra. cbn [negb]. destruct (Rlt_dec 0 (a * r + b)) as [Q|Q]; [rewrite (Rltb_t 0) by exact Q; now rewrite pow_fin by exact Q|].
        rewrite (Rltb_f 0) by lra. replace (a * r + b) with 0 by lra. now rewrite power_0. }
      rewrite (at_value 4 _ r _ V). change (- (4))%Z with (-4)%Z. rewrite POW.
      * rewrite power_undo by lra. rewrite fin_iff. split; [intros _; right; lra|]. intros _. now field.
      * unfold B, break_value. apply power_le; [|lra]. split; [apply Rmax_l|]. apply Rmax_lub; lra.
    + rewrite (at_value 4 _ r 0) by (ev; rewrite (Rltb_f r) by lra; cbn [negb]; now rewrite (Rltb_f 0) by lra). change (- (4))%Z with (-4)%Z.
      assert (BZ : B = 0) by (unfold B, break_value; rewrite Rmax_left by lra; apply power_0). rewrite POW by lra. rewrite power_0, fin_iff, inv_of_line by exact NA.
      split; [lra|]. intros [H|H]; lra.
Qed.

(** ** Type 7 *)
Lemma undo7_tiny g a b c d r : g < tol \/ a < tol \/ b < tol ->
  (undoes 7 [g; a; b; c; d] r <-> r = 0 /\ (0 <= g \/ b < 0)).
Proof.
  intros S. assert (B : forall y, eval_real (-7) [g; a; b; c; d] y = Some (Fin 0)).
  { intros y. ev. destruct S as [S|[S|S]]; rewrite (Rltb_t _ _ S); rewrite ?orb_true_r; reflexivity. }
  assert (H : undoes 7 [g; a; b; c; d] r <-> r = 0 /\ exists y, eval_real 7 [g; a; b; c; d] 0 = Some (Fin y)).
  { split.
    - intros (y & Y & R). change (- (7))%Z with (-7)%Z in R. rewrite B in R. injection R as <-. split; [reflexivity|now exists y].
    - intros (-> & y & Y). exists y. split; [exact Y|]. apply B. }
  rewrite H. clear H. destruct (Rtotal_order g 0) as [G|[->|G]].
  - destruct (Rlt_dec b 0) as [N|N].
    + split; [intros (-> & _); split; [reflexivity|now right]|]. intros (-> & _). split; [reflexivity|]. exists d. ev. rewrite pow0_neg by exact G.
      cbn [ext_mul ext_sgn]. rewrite Reqb_f by lra. rewrite Reqb_f by lra. unfold inf_of. now rewrite Rltb_t by lra.
    + split; [|lra]. intros (_ & y & Y). exfalso. revert Y. ev. rewrite pow0_neg by exact G. cbn [ext_mul ext_sgn]. unfold Reqb. destruct (Req_EM_T b 0); [discriminate|].
      destruct (Req_EM_T 1 0); [lra|]. unfold inf_of. rewrite Rltb_f by lra. cbn [ext_add ext_ge ext_lt negb ext_log10 ext_mul ext_sgn].
      unfold Reqb. destruct (Req_EM_T a 0); [discriminate|]. destruct (Req_EM_T 1 0); [lra|]. unfold inf_of. destruct (Rltb (a * 1) 0); discriminate.
  - split; [intros (-> & _); split; [reflexivity|left; lra]|]. intros (-> & _). split; [reflexivity|]. eexists. apply (type7_off0 a b c d 0 0). right. lia.
  - split; [intros (-> & _); split; [reflexivity|left; lra]|]. intros (-> & _). split; [reflexivity|]. eexists. apply type7_formula; lra.
Qed.
Lemma undo7 g a b c d r : tol <= g -> tol <= a -> tol <= b ->
  (undoes 7 [g; a; b; c; d] r <-> (0 <= r /\ 0 < b * power r g + c) \/ (g = 1 /\ r < 0 /\ 0 < b * r + c)).
Proof.
  intros G A B. pose proof tol_pos as T. assert (NB : b <> 0) by lra. pose proof ln10_pos as T10.
  assert (BACK : forall y, eval_real (-7) [g; a; b; c; d] y = Some (ext_pow (Fin ((Rpower 10 ((y - d) / a) - c) / b)) (Fin (1 / g)))).
  { intros y. ev. rewrite !Rltb_f by assumption. cbn [orb]. rewrite (div_fin (y - d)) by lra. rewrite pow_fin by lra. ar. rewrite div_fin by lra.
    rewrite power_pos by lra. now rewrite div_fin by lra. }
  assert (TEN : forall q, 0 < q -> Rpower 10 ((a * log_10 q + d - d) / a) = q).
  { intros q Q. replace ((a * log_10 q + d - d) / a) with (log_10 q) by (field; lra). unfold Rpower, log_10. replace (ln q / ln 10 * ln 10) with (ln q) by (field; lra).
    now apply exp_ln. }
  assert (TEN0 : Rpower 10 ((d - d) / a) = 1).
  { replace ((d - d) / a) with 0 by (field; lra). unfold Rpower. rewrite Rmult_0_l. apply exp_0. }
  destruct (Rle_dec 0 r) as [P|P].
  { destruct (Rlt_dec 0 (b * power r g + c)) as [E|E].
    - split; [intros _; left; tauto|]. intros _. destruct (type7_inverse g a b c d r G A B P E) as (y & Y & _ & H). now exists y.
    - split; [|intros [H|H]; lra]. intros H. exfalso. revert H. rewrite (at_value 7 _ r d).
      2:{ rewrite type7_formula by lra. destruct (Rle_dec (b * power r g + c) 0); [reflexivity|lra]. }
      change (- (7))%Z with (-7)%Z. rewrite BACK, TEN0. pose proof (power_ge0 r g) as PG. assert (0 <= b * power r g) by (apply Rmult_le_pos; lra).
      assert (Q : 0 < (1 - c) / b) by (apply Rdiv_lt_0_compat; lra). rewrite pow_fin by exact Q. rewrite fin_iff. intros H0.
      assert (H1 : power r g = (1 - c) / b) by (rewrite <- H0; apply power_undo'; lra). rewrite H1 in E. apply E.
      replace (b * ((1 - c) / b) + c) with 1 by (now field). lra. }
  assert (N : r < 0) by lra. destruct (whole_dec g) as [(n & W)|W].
  2:{ split; [|intros [H|(H & _)]; [lra|now destruct (W 1%Z)]]. intros H. exfalso. revert H. apply no_value. intros y. rewrite type7_not_real by assumption. discriminate. }
  assert (NP : (0 < n)%Z) by (apply lt_IZR; lra).
  assert (FW : eval_real 7 [g; a; b; c; d] r = Some (Fin (if Rlt_dec 0 (b * powerRZ r n + c) then a * log_10 (b * powerRZ r n + c) + d else d))).
  { rewrite W. apply type7_off0. left. lra. }
  (* roots of negative numbers are real for g = 1 only *)
  assert (ROOT : forall q, ext_pow (Fin q) (Fin (1 / g)) = Fin r -> g = 1 /\ q = r).
  { intros q H. destruct (Rle_dec 0 q) as [Q|Q]; [exfalso; revert H; rewrite pow_fin0 by (assumption || (apply inv_pos; lra)); intros H; injection H as H; pose proof (power_ge0 q (1 / g)); lra|].
    destruct (whole_dec (1 / g)) as [(m & M)|M]; [|rewrite pow_nan in H by (lra || assumption); discriminate].
    assert (MN : (m * n = 1)%Z) by (apply eq_IZR; rewrite mult_IZR, <- M, <- W; field; lra).
    assert (N1 : n = 1%Z) by (destruct (Z.eq_dec n 1); [assumption|]; assert (Z.abs m < 1 \/ 1 <= Z.abs m)%Z by lia; nia). subst n.
    assert (m = 1%Z) by lia. subst m. split; [exact W|]. rewrite M in H. rewrite pow_int in H by (left; lra). injection H as H. change (q ^ 1 = r) in H. lra. }
  rewrite (at_value 7 _ r _ FW). change (- (7))%Z with (-7)%Z. rewrite BACK. destruct (Rlt_dec 0 (b * powerRZ r n + c)) as [E|E].
  - rewrite TEN by exact E. replace ((b * powerRZ r n + c - c) / b) with (powerRZ r n) by (now field). split.
    + intros H. apply some_eq in H. apply ROOT in H. destruct H as (G1 & RN). right. rewrite RN in E. tauto.
    + intros [H|(G1 & _ & E1)]; [lra|]. assert (n = 1%Z) by (apply eq_IZR; lra). subst n. replace (powerRZ r 1) with r by (change (r = r ^ 1); ring).
      rewrite G1. replace (1 / 1) with (IZR 1) by lra. rewrite pow_int by (left; lra). do 2 f_equal. change (r ^ 1 = r). ring.
  - rewrite TEN0. split.
    + intros H. apply some_eq in H. apply ROOT in H. destruct H as (G1 & RN). exfalso. assert (n = 1%Z) by (apply eq_IZR; lra). subst n. apply E.
      replace (powerRZ r 1) with r by (change (r = r ^ 1); ring). rewrite <- RN. replace (b * ((1 - c) / b) + c) with 1 by (now field). lra.
    + intros [H|(G1 & _ & E1)]; [lra|]. exfalso. assert (n = 1%Z) by (apply eq_IZR; lra). subst n. apply E. replace (powerRZ r 1) with r by (change (r = r ^ 1); ring). exact E1.
Qed.

(** ** Type 8 *)
Lemma type8_number a b c d e r :
  (exists y, eval_real 8 [a; b; c; d; e] r = Some (Fin y)) <-> 0 < b \/ (b = 0 /\ 0 <= c * r + d) \/ (b < 0 /\ whole (c * r + d)).
Proof.
  assert (E : eval_real 8 [a; b; c; d; e] r = Some (ext_add (ext_mul (Fin a) (ext_pow (Fin b) (Fin (c * r + d)))) (Fin e))) by (ev; reflexivity).
  rewrite E. destruct (Rtotal_order b 0) as [B|[->|B]].
  - destruct (whole_dec (c * r + d)) as [(n & W)|W].
    + split; [intros _; right; right; split; [exact B|now exists n]|]. intros _. rewrite W, pow_int by (left; lra). eexists; reflexivity.
    + rewrite pow_nan by assumption. split; [intros (y & Y); discriminate|]. intros [H|[H|(_ & n & H)]]; [lra|lra|now destruct (W n)].
  - destruct (Rtotal_order (c * r + d) 0) as [L|[L|L]].
    + rewrite pow0_neg by exact L. split; [|intros [H|[H|H]]; lra]. intros (y & Y). apply some_eq in Y. now destruct (inf_times a e y).
    + rewrite L, pow_e0. split; [intros _; right; left; lra|]. intros _. eexists; reflexivity.
    + rewrite pow_fin0 by lra. split; [intros _; right; left; lra|]. intros _. eexists; reflexivity.
  - rewrite pow_fin by exact B. split; [tauto|]. intros _. eexists; reflexivity.
Qed.
Lemma undo8 a b c d e r :
  undoes 8 [a; b; c; d; e] r <->
  (~ usable a c /\ r = 0 /\ (0 < b \/ (b = 0 /\ 0 <= d) \/ (b < 0 /\ whole d))) \/
  (usable a c /\
   ((0 < b /\ ((0 < a /\ b <> 1) \/ (a < 0 /\ r = 0))) \/
    (b = 0 /\ c * r + d = 0 /\ (0 < a \/ r = 0)) \/
    (b < 0 /\ r = 0 /\ exists n, d = IZR n /\ (if Z.even n then a < 0 else 0 < a)))).
Proof.
  pose proof tol_pos as T. destruct (usable_dec a c) as [U|U].
  2:{ assert (NU : ~ usable a c) by (unfold usable; lra).
      assert (B : forall y, eval_real (-8) [a; b; c; d; e] y = Some (Fin 0)).
      { intros y. ev. destruct U as [U|U]; rewrite (Rltb_t _ _ U); rewrite ?orb_true_r; now destruct (Rltb (y - e) 0). }
      assert (H : undoes 8 [a; b; c; d; e] r <-> r = 0 /\ exists y, eval_real 8 [a; b; c; d; e] 0 = Some (Fin y)).
      { split.
        - intros (y & Y & R). change (- (8))%Z with (-8)%Z in R. rewrite B in R. injection R as <-. split; [reflexivity|now exists y].
        - intros (-> & y & Y). exists y. split; [exact Y|]. apply B. }
      rewrite H, type8_number. replace (c * 0 + d) with d by ring. tauto. }
  destruct (usable_nz a c U) as (NA & NC). assert (U' := U). destruct U' as (UA & UC).
  assert (E : eval_real 8 [a; b; c; d; e] r = Some (ext_add (ext_mul (Fin a) (ext_pow (Fin b) (Fin (c * r + d)))) (Fin e))) by (ev; reflexivity).
  assert (LOW : forall q, a * q < 0 -> eval_real (-8) [a; b; c; d; e] (a * q + e) = Some (Fin 0)) by (intros q Q; ev; now rewrite Rltb_t by lra).
  assert (HIGH : forall q, 0 <= a * q -> eval_real (-8) [a; b; c; d; e] (a * q + e) =
    Some (ext_div (ext_sub (ext_div (ext_log10 (Fin q)) (ext_log10 (Fin b))) (Fin d)) (Fin c))).
  { intros q Q. ev. rewrite Rltb_f by lra. rewrite !small_abs by assumption. cbn [orb]. rewrite (div_fin _ a) by exact NA.
    now replace ((a * q + e - e) / a) with q by (now field). }
  destruct (Rtotal_order b 0) as [B|[->|B]].
  - destruct (whole_dec (c * r + d)) as [(n & W)|W].
    2:{ split.
        - intros H. exfalso. revert H. apply no_value. intros y. rewrite E, pow_nan by assumption. discriminate.
        - intros [(H & _)|(_ & [H|[H|(_ & -> & n & H & _)]])]; [contradiction|lra|lra|]. destruct (W n). rewrite <- H. ring. }
    assert (QS : (if Z.even n then 0 < powerRZ b n else powerRZ b n < 0)) by (now apply powerRZ_sign). set (q := powerRZ b n) in *.
    assert (V : eval_real 8 [a; b; c; d; e] r = Some (Fin (a * q + e))) by (rewrite E, W, pow_int by (left; lra); reflexivity).
    rewrite (at_value 8 _ r _ V). change (- (8))%Z with (-8)%Z. destruct (Rlt_dec (a * q) 0) as [S|S].
    + rewrite LOW by exact S. rewrite fin_iff. split.
      * intros <-. right. split; [exact U|]. right. right. split; [exact B|]. split; [reflexivity|]. exists n. split; [rewrite <- W; ring|].
        destruct (Z.even n); destruct (Rlt_dec a 0) as [A|A]; try lra.
        -- assert (0 <= a * q) by (apply Rmult_le_pos; lra). lra.
        -- assert (0 <= - a * - q) by (apply Rmult_le_pos; lra). lra.
      * intros [(H & _)|(_ & [H|[H|(_ & H & _)]])]; [contradiction|lra|lra|now symmetry].
    + rewrite HIGH by lra. assert (LB : ext_log10 (Fin b) = NaN) by (cbn [ext_log10]; rewrite Rltb_f by lra; now rewrite Reqb_f by lra). rewrite LB.
      split; [intros H; exfalso; destruct (ext_log10 (Fin q)); discriminate H|].
      intros [(H & _)|(_ & [H|[H|(_ & -> & m & M & H)]])]; [contradiction|lra|lra|]. exfalso.
      assert (m = n) by (apply eq_IZR; rewrite <- M, <- W; ring). subst m. apply S. destruct (Z.even n).
      * assert (0 < - a * q) by (apply Rmult_lt_0_compat; lra). lra.
      * assert (0 < a * - q) by (apply Rmult_lt_0_compat; lra). lra.
  - assert (L0 : ext_log10 (Fin 0) = NInf) by (cbn [ext_log10]; rewrite Rltb_f by lra; now rewrite Reqb_t).
    destruct (Rtotal_order (c * r + d) 0) as [L|[L|L]].
    + split; [|intros [(H & _)|(_ & [H|[H|H]])]; [contradiction|lra|lra|lra]]. intros H. exfalso. revert H. apply no_value. intros y. rewrite E, pow0_neg by exact L.
      intros Y. apply some_eq in Y. now destruct (inf_times a e y).
    + rewrite L, pow_e0 in E. rewrite (at_value 8 _ r (a * 1 + e) E). change (- (8))%Z with (-8)%Z. destruct (Rlt_dec a 0) as [A|A].
      * rewrite LOW by lra. rewrite fin_iff. split; [intros <-; right; split; [exact U|]; right; left; tauto|]. intros [(H & _)|(_ & [H|[(_ & _ & [H|H])|H]])]; try lra; contradiction.
      * rewrite HIGH by lra. rewrite L0, log_fin by lra. change (ext_div (Fin (log_10 1)) NInf) with (Fin 0). rewrite sub_fin, div_fin by exact NC. rewrite fin_iff, inv_of_line by exact NC. split; [|lra].
        intros _. right. split; [exact U|]. right. left. split; [reflexivity|]. split; [exact L|]. left. lra.
    + split; [|intros [(H & _)|(_ & [H|[H|H]])]; [contradiction|lra|lra|lra]]. intros H. exfalso. revert H. rewrite pow_fin0, power_0 in E by lra.
      rewrite (at_value 8 _ r (a * 0 + e) E). change (- (8))%Z with (-8)%Z. rewrite HIGH by lra. rewrite L0. discriminate.
  - pose proof (power_gt0 b (c * r + d) B) as PQ. set (q := power b (c * r + d)) in *.
    rewrite pow_fin in E by exact B. fold q in E. rewrite (at_value 8 _ r (a * q + e) E). change (- (8))%Z with (-8)%Z. destruct (Rlt_dec a 0) as [A|A].
    + rewrite LOW by (assert (0 < - a * q) by (apply Rmult_lt_0_compat; lra); lra). rewrite fin_iff. split; [intros <-; right; split; [exact U|]; left; split; [exact B|]; right; tauto|].
      intros [(H & _)|(_ & [(_ & [H|(_ & H)])|[H|H]])]; [contradiction|lra|now symmetry|lra|lra].
    + destruct (Req_dec b 1) as [->|B1].
      * split; [|intros [(H & _)|(_ & [(_ & [H|H])|[H|H]])]; [contradiction|lra|lra|lra|lra]]. intros H. exfalso. revert H.
        rewrite HIGH by (apply Rmult_le_pos; lra). rewrite (log_fin 1) by lra. rewrite log_fin by exact PQ.
        replace (log_10 1) with 0 by (unfold log_10; rewrite ln_1; field; pose proof ln10_pos; lra). intros H. apply some_eq in H. revert H.
        assert (Z : ext_div (Fin (log_10 q)) (Fin 0) = NaN).
        { unfold q. rewrite power_1l. unfold log_10. rewrite ln_1. replace (0 / ln 10) with 0 by (field; pose proof ln10_pos; lra). cbn [ext_div]. now rewrite !Reqb_t by reflexivity. }
        rewrite Z. discriminate.
      * split; [intros _; right; split; [exact U|]; left; split; [exact B|]; left; split; [lra|exact B1]|]. intros _.
        assert (AP : tol <= a) by (rewrite Rabs_right in UA by lra; lra). destruct (type8_inverse a b c d e r AP B B1 UC) as (y & Y & -> & H). fold q in Y, H. exact H.
Qed.

(** ** Type 109 *)
Lemma undo109 k r : undoes 109 [k] r <-> k <> 0 /\ r = / 2.
Proof.
  destruct (Req_dec k 0) as [->|K].
  - split; [|tauto]. intros (y & Y & _). exfalso. rewrite type109_zero in Y. discriminate.
  - destruct (type109_inverts_only_at_half k r K) as (F & B). rewrite (at_value 109 _ r _ F). change (- (109))%Z with (-109)%Z. rewrite B. tauto.
Qed.

(** ** Type 108 *)
Lemma pow_nonneg z g q : (forall n, g <> IZR n) -> ext_pow z (Fin g) = Fin q -> 0 <= q.
Proof.
  intros W H. destruct (Req_dec g 0) as [->|NG]; [now destruct (W 0%Z)|]. destruct z as [u| | |].
  - destruct (Rtotal_order u 0) as [U|[->|U]].
    + rewrite pow_nan in H by assumption. discriminate.
    + destruct (Rlt_dec 0 g) as [G|G]; [rewrite pow_fin0 in H by lra; injection H as <-; apply power_ge0|rewrite pow0_neg in H by lra; discriminate].
    + rewrite pow_fin in H by exact U. injection H as <-. apply power_ge0.
  - revert H. cbn [ext_pow]. rewrite Reqb_f by exact NG. destruct (Rltb 0 g); [discriminate|]. intros H. injection H as <-. lra.
  - revert H. cbn [ext_pow]. rewrite Reqb_f by exact NG. destruct (Rltb 0 g); [destruct (is_integer g && Z.odd (Int_part g))%bool; discriminate|]. intros H. injection H as <-. lra.
  - revert H. cbn [ext_pow]. rewrite Reqb_f by exact NG. discriminate.
Qed.
Lemma ninf_neg h : h < 0 -> ext_pow NInf (Fin h) = Fin 0.
Proof. intros H. cbn [ext_pow]. rewrite Reqb_f by lra. now rewrite Rltb_f by lra. Qed.
Lemma pow_one u : ext_pow (Fin u) (Fin 1) = Fin u.
Proof. change 1 with (IZR 1). rewrite pow_int by (right; lia). f_equal. change (u ^ 1 = u). ring. Qed.
Lemma pow_m1 u : u <> 0 -> ext_pow (Fin u) (Fin (- (1))) = Fin (/ u).
Proof. intros U. rewrite <- opp_IZR. rewrite pow_int by (now left). f_equal. change (/ u ^ 1 = / u). f_equal. ring. Qed.
Lemma whole_inverse g n m : g <> 0 -> g = IZR n -> 1 / g = IZR m -> g = 1 \/ g = - (1).
Proof.
  intros NG N M. assert (E : (n * m = 1)%Z) by (apply eq_IZR; rewrite mult_IZR, <- N, <- M; now field).
  assert (n = 1 \/ n = -1)%Z as [-> | ->].
  { destruct (Z.eq_dec m 0) as [->|NM]; [lia|]. assert (1 <= Z.abs m)%Z by lia. assert (Z.abs n * Z.abs m = 1)%Z by (rewrite <- Z.abs_mul; now rewrite E). nia. }
  - now left.
  - right. rewrite N. now rewrite <- opp_IZR.
Qed.
Lemma undo108 g r :
  undoes 108 [g] r <->
  (Rabs g < tol /\ ((0 <= g /\ r = 0) \/ (g < 0 /\ r = 1))) \/
  (tol <= Rabs g /\ ((0 < g /\ 0 <= r <= 1) \/ (g < 0 /\ (r < 0 \/ r = 1)) \/ g = 1 \/ (g = - (1) /\ r <> 0))).
Proof.
  pose proof tol_pos as T.
  assert (BACK : forall y, eval_real (-108) [g] y = Some (ext_sub (Fin 1) (ext_pow (ext_sub (Fin 1) (ext_pow (Fin y) (Fin g))) (Fin g)))) by (intros y; ev; reflexivity).
  assert (BACK0 : g < 0 -> eval_real (-108) [g] 0 = Some (Fin 1)).
  { intros G. rewrite BACK, pow0_neg by exact G. change (ext_sub (Fin 1) PInf) with NInf. rewrite ninf_neg by exact G. rewrite sub_fin. now rewrite Rminus_0_r. }
  destruct (Rlt_dec (Rabs g) tol) as [S|S].
  { rewrite (at_value 108 _ r 0) by (ev; now rewrite Rltb_t by exact S). change (- (108))%Z with (-108)%Z. destruct (Rlt_dec g 0) as [G|G].
    - rewrite (BACK0 G), fin_iff. split; [intros <-; left; tauto|]. intros [(_ & H)|H]; lra.
    - assert (B0 : eval_real (-108) [g] 0 = Some (Fin 0)).
      { rewrite BACK. destruct (Req_dec g 0) as [->|NG].
        - rewrite pow_e0, sub_fin. do 2 f_equal. lra.
        - rewrite pow_fin0 by lra. rewrite power_0, sub_fin. rewrite pow_fin by lra. rewrite Rminus_0_r, power_1l, sub_fin. do 2 f_equal. lra. }
      rewrite B0, fin_iff. split; [intros <-; left; split; [exact S|]; left; lra|]. intros [(_ & H)|H]; lra. }
  assert (G : tol <= Rabs g) by lra. pose proof (abs_nz g G) as NG.
  assert (EV : eval_real 108 [g] r = Some (ext_pow (ext_sub (Fin 1) (ext_pow (Fin (1 - r)) (Fin (1 / g)))) (Fin (1 / g)))).
  { ev. rewrite small_abs by exact G. now rewrite !(div_fin 1) by exact NG. }
  assert (H0 : 1 / g <> 0) by (unfold Rdiv; rewrite Rmult_1_l; now apply Rinv_neq_0_compat).
  assert (SUF : forall P : Prop, (P -> undoes 108 [g] r) -> (undoes 108 [g] r -> P) -> (undoes 108 [g] r <-> (Rabs g < tol /\ ((0 <= g /\ r = 0) \/ (g < 0 /\ r = 1))) \/ (tol <= Rabs g /\ P))).
  { intros P A B. split; [intros H; right; split; [exact G|now apply B]|]. intros [H|(_ & H)]; [lra|now apply A]. }
  apply SUF; clear SUF.
  - intros [(P & R)|[(N & [R|R])|[->|(-> & R)]]].
    + destruct (type108_inverse g r ltac:(rewrite Rabs_right in G; lra) R) as (y & Y & _ & H). now exists y.
    + assert (V1 : power (1 - r) (1 / g) < 1).
      { rewrite power_pos by lra. unfold Rpower. apply Rlt_le_trans with (exp 0); [apply exp_increasing|rewrite exp_0; lra]. assert (0 < ln (1 - r)) by (rewrite <- ln_1; apply ln_increasing; lra).
        pose proof (neg_inv g N). assert (0 < - (1 / g) * ln (1 - r)) by (apply Rmult_lt_0_compat; lra). lra. }
      pose proof (power_gt0 (1 - r) (1 / g) ltac:(lra)) as V0. set (v := power (1 - r) (1 / g)) in *.
      exists (power (1 - v) (1 / g)). split.
      * rewrite EV, pow_fin by lra. fold v. rewrite sub_fin. now rewrite pow_fin by lra.
      * change (- (108))%Z with (-108)%Z. rewrite BACK. rewrite pow_fin by (apply power_gt0; lra). rewrite power_undo' by lra. rewrite sub_fin. replace (1 - (1 - v)) with v by ring.
        rewrite pow_fin by exact V0. unfold v. rewrite power_undo' by lra. rewrite sub_fin. do 2 f_equal. ring.
    + subst r. exists 0. split; [|exact (BACK0 N)]. rewrite EV. replace (1 - 1) with 0 by ring. pose proof (neg_inv g N). rewrite pow0_neg by assumption.
      change (ext_sub (Fin 1) PInf) with NInf. now rewrite ninf_neg by assumption.
    + exists r. split.
      * rewrite EV. replace (1 / 1) with 1 by lra. rewrite pow_one, sub_fin, pow_one. do 2 f_equal. ring.
      * change (- (108))%Z with (-108)%Z. rewrite BACK. rewrite pow_one, sub_fin, pow_one, sub_fin. do 2 f_equal. ring.
    + replace (1 / - (1)) with (- (1)) in EV by (field; lra). destruct (Req_dec r 1) as [->|R1].
      * exists 0. split; [|apply BACK0; lra]. rewrite EV. replace (1 - 1) with 0 by ring. rewrite pow0_neg by lra. change (ext_sub (Fin 1) PInf) with NInf. now rewrite ninf_neg by lra.
      * assert (D : 1 - r <> 0) by lra. assert (W : 1 - / (1 - r) = - r / (1 - r)) by (now field).
        assert (WN : - r / (1 - r) <> 0) by (unfold Rdiv; apply Rmult_integral_contrapositive; split; [lra|now apply Rinv_neq_0_compat]).
        exists (/ (- r / (1 - r))). split.
        -- rewrite EV, pow_m1 by exact D. rewrite sub_fin, W. now rewrite pow_m1 by exact WN.
        -- change (- (108))%Z with (-108)%Z. rewrite BACK. rewrite pow_m1 by (now apply Rinv_neq_0_compat). rewrite sub_fin, Rinv_inv. replace (1 - - r / (1 - r)) with (/ (1 - r)) by (now field).
           rewrite pow_m1 by (now apply Rinv_neq_0_compat). rewrite Rinv_inv, sub_fin. do 2 f_equal. ring.
  - intros (y & Y & H). change (- (108))%Z with (-108)%Z in H. rewrite BACK in H. apply some_eq in H.
    assert (X : ext_pow (ext_sub (Fin 1) (ext_pow (Fin y) (Fin g))) (Fin g) = Fin (1 - r)).
    { destruct (ext_pow (ext_sub (Fin 1) (ext_pow (Fin y) (Fin g))) (Fin g)) as [x| | |]; try discriminate H. rewrite sub_fin in H. injection H as H. f_equal. lra. }
    clear H. rewrite EV in Y. apply some_eq in Y.
    destruct (Req_dec g 1) as [G1|G1]; [tauto|]. destruct (Req_dec g (- (1))) as [G2|G2].
    { destruct (Req_dec r 0) as [->|R]; [exfalso|tauto]. revert Y. subst g. replace (1 / - (1)) with (- (1)) by (field; lra). replace (1 - 0) with 1 by ring.
      rewrite pow_m1 by lra. rewrite sub_fin. replace (1 - / 1) with 0 by lra. rewrite pow0_neg by lra. discriminate. }
    assert (NW : forall n, 1 / g = IZR n -> forall m, g <> IZR m) by (intros n N m M; destruct (whole_inverse g m n NG M N); tauto).
    assert (INNER : forall w, w < 0 -> ext_pow (Fin w) (Fin (1 / g)) = Fin y -> exists n, 1 / g = IZR n /\ y = powerRZ w n).
    { intros w Wn E. destruct (whole_dec (1 / g)) as [(n & N)|N]; [|rewrite pow_nan in E by assumption; discriminate].
      exists n. split; [exact N|]. rewrite N, pow_int in E by (left; lra). now injection E. }
    destruct (Rlt_dec (1 - r) 0) as [U|U].
    { exfalso. destruct (whole_dec (1 / g)) as [(n & N)|N].
      - pose proof (pow_nonneg _ g _ (NW n N) X). lra.
      - rewrite (pow_nan (1 - r)) in Y by assumption. change (ext_sub (Fin 1) NaN) with NaN in Y. revert Y. cbn [ext_pow]. rewrite Reqb_f by exact H0. discriminate. }
    (* what is left is a negative number under the outer power *)
    assert (NEG : 1 < power (1 - r) (1 / g) -> 0 < 1 - r -> False).
    { intros V U0. rewrite pow_fin in Y by exact U0. rewrite sub_fin in Y. set (v := power (1 - r) (1 / g)) in *.
      destruct (INNER (1 - v) ltac:(lra) Y) as (n & N & ->). specialize (NW n N).
      assert (SG : powerRZ (1 - v) n = (if Z.even n then 1 else -1) * powerRZ (v - 1) n).
      { rewrite <- minus1, <- powerRZ_mult. f_equal. ring. }
      assert (PV : 0 < powerRZ (v - 1) n) by (apply powerRZ_lt; lra). destruct (Z.even n).
      2:{ rewrite SG in X. rewrite (pow_nan (-1 * powerRZ (v - 1) n)) in X by (lra || assumption). change (ext_sub (Fin 1) NaN) with NaN in X. revert X. cbn [ext_pow].
          rewrite Reqb_f by exact NG. discriminate. }
      assert (PW : powerRZ (1 - v) n = power (v - 1) (1 / g)) by (rewrite SG, Rmult_1_l, N, power_pos by lra; apply powerRZ_Rpower; lra).
      rewrite PW in X. rewrite (pow_fin (power (v - 1) (1 / g))) in X by (apply power_gt0; lra). rewrite power_undo' in X by lra. rewrite sub_fin in X.
      replace (1 - (v - 1)) with (2 - v) in X by ring.
      assert (UV : 1 - r = power v g) by (unfold v; rewrite power_undo' by lra; reflexivity).
      destruct (Rtotal_order (2 - v) 0) as [L|[L|L]].
      - rewrite pow_nan in X by assumption. discriminate.
      - rewrite L in X. destruct (Rlt_dec 0 g) as [P|P]; [rewrite pow_fin0, power_0 in X by lra; injection X as X; lra|rewrite pow0_neg in X by lra; discriminate].
      - rewrite pow_fin in X by exact L. injection X as X. rewrite UV in X. apply (f_equal (fun z => power z (1 / g))) in X. rewrite !power_undo in X by lra. lra. }
    assert (BIG : 0 < 1 / g * ln (1 - r) -> 0 < 1 - r -> False).
    { intros L U0. apply NEG; [|exact U0]. rewrite power_pos by exact U0. unfold Rpower. apply Rle_lt_trans with (exp 0); [rewrite exp_0; lra|]. now apply exp_increasing. }
    destruct (Rlt_dec 0 g) as [P|P].
    + left. split; [exact P|]. split; [|lra]. destruct (Rlt_dec r 0) as [R|R]; [exfalso|lra]. apply BIG; [|lra].
      apply Rmult_lt_0_compat; [now apply inv_pos|]. rewrite <- ln_1. apply ln_increasing; lra.
    + right. left. assert (N : g < 0) by lra. split; [exact N|]. pose proof (neg_inv g N) as NI. destruct (Rtotal_order r 0) as [R|[->|R]]; [now left| |].
      * exfalso. rewrite Rminus_0_r in Y. rewrite (pow_fin 1) in Y by lra. rewrite power_1l, sub_fin in Y. replace (1 - 1) with 0 in Y by ring. rewrite pow0_neg in Y by exact NI. discriminate.
      * right. destruct (Req_dec r 1) as [E|E]; [exact E|exfalso]. apply BIG; [|lra]. assert (ln (1 - r) < 0) by (rewrite <- ln_1; apply ln_increasing; lra).
        assert (0 < - (1 / g) * - ln (1 - r)) by (apply Rmult_lt_0_compat; lra). lra.
Qed.

(** ** Types 4 and 5, for all parameters *)
Lemma root_back g a b r v : usable g a -> 0 <= v ->
  (ext_div (ext_sub (ext_pow (Fin v) (ext_div (Fin 1) (Fin g))) (Fin b)) (Fin a) = Fin r <-> on_power g a b r v).
Proof.
  intros U V. destruct (usable_nz g a U) as (NG & NA). rewrite (div_fin 1) by exact NG. unfold on_power. destruct V as [V| <-].
  - rewrite pow_fin by exact V. rewrite sub_fin, div_fin by exact NA. pose proof (power_gt0 v (1 / g) V) as P. split.
    + intros H. injection H as H. apply inv_of_line in H; [|exact NA]. left. rewrite <- H. split; [exact P|]. now rewrite power_undo' by lra.
    + intros [(X & ->)|H]; [|lra]. rewrite power_undo by lra. f_equal. now field.
  - destruct (Rlt_dec 0 g) as [G|G].
    + rewrite pow_fin0 by (lra || now apply inv_pos). rewrite power_0, sub_fin, div_fin by exact NA. split.
      * intros H. injection H as H. apply inv_of_line in H; [|exact NA]. right. lra.
      * intros [(X & H)|(X & _)]; [pose proof (power_gt0 _ g X); lra|]. f_equal. apply inv_of_line; lra.
    + rewrite pow0_neg by (apply neg_inv; lra). split; [intros H; exfalso; revert H; apply sub_div_inf; now left|]. intros [(X & H)|H]; [pose proof (power_gt0 _ g X); lra|lra].
Qed.
Lemma some_iff {A} (u v : A) : Some u = Some v <-> u = v.
Proof. split; [apply some_eq|now intros ->]. Qed.
Lemma tiny_usable g a : Rabs g < tol \/ Rabs a < tol -> ~ usable g a. Proof. unfold usable. lra. Qed.
Lemma undo5_all g a b c d e f r :
  undoes 5 [g; a; b; c; d; e; f] r <->
  (r < d /\ 0 < c /\ (tol <= c \/ r = 0)) \/
  (r < d /\ c <= 0 /\ ((r = 0 /\ (f < e \/ ~ usable g a)) \/ (usable g a /\ on_power g a b r (c * r + f - e)))) \/
  (d <= r /\ exists y, ((0 < a * r + b /\ y = power (a * r + b) g + e) \/ (a * r + b <= 0 /\ y = e)) /\
    ((c * d + f <= y /\ ((~ usable g a /\ r = 0) \/ (usable g a /\ on_power g a b r (y - e)))) \/
     (y < c * d + f /\ ((Rabs c < tol /\ r = 0) \/ (tol <= Rabs c /\ y = c * r + f))))).
Proof.
  pose proof tol_pos as T.
  assert (LINE : forall y, y < c * d + f -> (eval_real (-5) [g; a; b; c; d; e; f] y = Some (Fin r) <-> (Rabs c < tol /\ r = 0) \/ (tol <= Rabs c /\ y = c * r + f))).
  { intros y Y. ev. rewrite (Rltb_t y) by exact Y. cbn [negb]. destruct (Rlt_dec (Rabs c) tol) as [S|S].
    - rewrite (Rltb_t (Rabs c)) by exact S. rewrite fin_iff. split; [intros <-; left; tauto|intros [H|H]; lra].
    - rewrite small_abs by lra. assert (NC : c <> 0) by (apply abs_nz; lra). rewrite div_fin by exact NC. rewrite fin_iff, inv_of_line by exact NC.
      split; [intros ->; right; split; [lra|reflexivity]|intros [H|(_ & H)]; [lra|exact H]]. }
  assert (POW : forall y, c * d + f <= y -> (eval_real (-5) [g; a; b; c; d; e; f] y = Some (Fin r) <->
    (r = 0 /\ (y < e \/ ~ usable g a)) \/ (e <= y /\ usable g a /\ on_power g a b r (y - e)))).
  { intros y Y. ev. rewrite (Rltb_f y) by exact Y. cbn [negb]. destruct (Rlt_dec y e) as [L|L].
    - rewrite Rltb_t by lra. rewrite fin_iff. split; [intros <-; left; tauto|intros [(H & _)|H]; [now symmetry|lra]].
    - rewrite Rltb_f by lra. destruct (usable_dec g a) as [U|U].
      + assert (U' := U). destruct U' as (UG & UA). rewrite !small_abs by assumption. cbn [orb]. rewrite some_iff, (root_back g a b r (y - e) U) by lra.
        split; [intros H; right; split; [lra|tauto]|]. intros [(_ & [H|H])|H]; [lra|contradiction|tauto].
      + assert (NU := tiny_usable g a U). destruct U as [U|U]; rewrite (Rltb_t _ _ U); rewrite ?orb_true_r, ?orb_true_l, fin_iff;
          (split; [intros <-; left; tauto|intros [(H & _)|(_ & H & _)]; [now symmetry|contradiction]]). }
  destruct (Rlt_dec r d) as [L|L].
  - rewrite (at_value 5 _ r (c * r + f)) by (ev; rewrite Rltb_t by exact L; cbn [negb]; do 2 f_equal; ring). change (- (5))%Z with (-5)%Z.
    destruct (Rlt_dec 0 c) as [C|C].
    + assert (0 < c * (d - r)) by (apply Rmult_lt_0_compat; lra). rewrite LINE by lra. rewrite Rabs_right by lra. split.
      * intros [(H1 & H2)|(H1 & _)]; left; tauto.
      * intros [(_ & _ & [H1|H1])|[H1|H1]]; [right; split; [exact H1|reflexivity]| |lra|lra].
        destruct (Rlt_dec c tol); [left; tauto|right; split; [lra|reflexivity]].
    + assert (0 <= - c * (d - r)) by (apply Rmult_le_pos; lra). rewrite POW by lra. split.
      * intros [(-> & H1)|(_ & H1)]; right; left; (split; [exact L|]); (split; [lra|]); [left|now right]. split; [reflexivity|]. destruct H1 as [H1|H1]; [left; lra|now right].
      * intros [H1|[(_ & _ & [(-> & H1)|(U & H1)])|H1]]; [lra| | |lra].
        -- left. split; [reflexivity|]. destruct H1 as [H1|H1]; [left; lra|now right].
        -- right. split; [|tauto]. destruct H1 as [(X & H1)|H1]; [pose proof (power_gt0 _ g X); lra|lra].
  - set (Y := fun y => (0 < a * r + b /\ y = power (a * r + b) g + e) \/ (a * r + b <= 0 /\ y = e)).
    assert (FW : exists y, Y y /\ e <= y /\ eval_real 5 [g; a; b; c; d; e; f] r = Some (Fin y)).
    { destruct (Rlt_dec 0 (a * r + b)) as [P|P].
      - exists (power (a * r + b) g + e). split; [left; split; [exact P|reflexivity]|]. split; [pose proof (power_ge0 (a * r + b) g); lra|]. ev. rewrite (Rltb_f r) by lra. cbn [negb].
        rewrite (Rltb_t 0) by exact P. now rewrite pow_fin by exact P.
      - exists e. split; [right; split; [lra|reflexivity]|]. split; [lra|]. ev. rewrite (Rltb_f r) by lra. cbn [negb]. now rewrite (Rltb_f 0) by lra. }
    destruct FW as (y & YY & YE & FW). assert (UNIQ : forall z, Y z -> z = y) by (intros z Z; unfold Y in *; lra).
    rewrite (at_value 5 _ r y FW). change (- (5))%Z with (-5)%Z. destruct (Rle_dec (c * d + f) y) as [Q|Q].
    + rewrite POW by exact Q. split.
      * intros H. right. right. split; [lra|]. exists y. split; [exact YY|]. left. split; [exact Q|]. destruct H as [(H & [H1|H1])|H]; [lra|tauto|tauto].
      * intros [H|[H|(_ & z & Z & H)]]; [lra|lra|]. rewrite (UNIQ z Z) in H. destruct H as [(_ & [(H1 & H2)|H])|H]; [left; tauto|right; tauto|lra].
    + rewrite LINE by lra. split.
      * intros H. right. right. split; [lra|]. exists y. split; [exact YY|]. right. split; [lra|exact H].
      * intros [H|[H|(_ & z & Z & H)]]; [lra|lra|]. rewrite (UNIQ z Z) in H. destruct H as [H|(_ & H)]; [lra|exact H].
Qed.
Lemma undo4_all g a b c d r :
  undoes 4 [g; a; b; c; d] r <->
  exists y, ((r < d /\ y = c * r) \/ (d <= r /\ 0 < a * r + b /\ y = power (a * r + b) g) \/ (d <= r /\ a * r + b <= 0 /\ y = 0)) /\
    ((past_break g a b d y /\ ((~ usable g a /\ r = 0) \/ (usable g a /\ on_power g a b r y))) \/
     (~ past_break g a b d y /\ ((Rabs c < tol /\ r = 0) \/ (tol <= Rabs c /\ y = c * r)))).
Proof.
  pose proof tol_pos as T.
  set (D := if Rltb (a * d + b) 0 then Fin 0 else ext_pow (Fin (a * d + b)) (Fin g)).
  assert (PB : forall y, (past_break g a b d y /\ ext_ge (Fin y) D = true) \/ (~ past_break g a b d y /\ ext_ge (Fin y) D = false)).
  { intros y. unfold past_break, D. destruct (Rtotal_order (a * d + b) 0) as [L|[Z|L]].
    - rewrite (Rltb_t (a * d + b)) by exact L. ar. destruct (Rlt_dec y 0) as [Q|Q]; [right; split; [lra|now rewrite Rltb_t]|left; split; [lra|now rewrite Rltb_f by lra]].
    - rewrite Z, Rltb_f by lra. destruct (Rtotal_order g 0) as [G|[->|G]].
      + right. split; [lra|]. rewrite pow0_neg by exact G. reflexivity.
      + rewrite pow_e0. ar. destruct (Rlt_dec y 1) as [Q|Q]; [right; split; [lra|now rewrite Rltb_t]|left; split; [lra|now rewrite Rltb_f by lra]].
      + rewrite pow_fin0, power_0 by lra. ar. destruct (Rlt_dec y 0) as [Q|Q]; [right; split; [lra|now rewrite Rltb_t]|left; split; [lra|now rewrite Rltb_f by lra]].
    - rewrite Rltb_f by lra. rewrite pow_fin by exact L. ar. destruct (Rlt_dec y (power (a * d + b) g)) as [Q|Q]; [right; split; [lra|now rewrite Rltb_t]|left; split; [lra|now rewrite Rltb_f by lra]]. }
  assert (PB0 : forall y, past_break g a b d y -> 0 <= y).
  { intros y [(P & H)|[H|H]]; [pose proof (power_gt0 _ g P); lra|lra|lra]. }
  assert (BACK : forall y, eval_real (-4) [g; a; b; c; d] y = Some (Fin r) <->
    (past_break g a b d y /\ ((~ usable g a /\ r = 0) \/ (usable g a /\ on_power g a b r y))) \/
    (~ past_break g a b d y /\ ((Rabs c < tol /\ r = 0) \/ (tol <= Rabs c /\ y = c * r)))).
  { intros y. ev. fold D. destruct (PB y) as [(P & E)|(P & E)].
    - rewrite E. destruct (usable_dec g a) as [U|U].
      + assert (U' := U). destruct U' as (UG & UA). rewrite !small_abs by assumption. cbn [orb]. rewrite some_iff, (root_back g a b r y U) by now apply PB0. tauto.
      + assert (NU := tiny_usable g a U). destruct U as [U|U]; rewrite (Rltb_t _ _ U); rewrite ?orb_true_r, ?orb_true_l, fin_iff;
          (split; [intros <-; left; tauto|intros [(_ & [(_ & H)|(H & _)])|(H & _)]; [now symmetry|contradiction|contradiction]]).
    - rewrite E. destruct (Rlt_dec (Rabs c) tol) as [S|S].
      + rewrite (Rltb_t (Rabs c)) by exact S. rewrite fin_iff. split; [intros <-; right; tauto|intros [(H & _)|(_ & [H|H])]; [contradiction|lra|lra]].
      + rewrite small_abs by lra. assert (NC : c <> 0) by (apply abs_nz; lra). rewrite div_fin by exact NC. rewrite fin_iff. split.
        * intros <-. right. split; [exact P|]. right. split; [lra|]. now field.
        * intros [(H & _)|(_ & [H|(_ & ->)])]; [contradiction|lra|now field]. }
  set (Y := fun y => (r < d /\ y = c * r) \/ (d <= r /\ 0 < a * r + b /\ y = power (a * r + b) g) \/ (d <= r /\ a * r + b <= 0 /\ y = 0)).
  assert (FW : exists y, Y y /\ eval_real 4 [g; a; b; c; d] r = Some (Fin y)).
  { unfold Y. destruct (Rlt_dec r d) as [L|L].
    - exists (c * r). split; [left; lra|]. ev. rewrite Rltb_t by exact L. cbn [negb]. do 2 f_equal. ring.
    - destruct (Rlt_dec 0 (a * r + b)) as [P|P].
      + exists (power (a * r + b) g). split; [right; left; lra|]. ev. rewrite (Rltb_f r) by lra. cbn [negb]. rewrite (Rltb_t 0) by exact P. now rewrite pow_fin by exact P.
      + exists 0. split; [right; right; lra|]. ev. rewrite (Rltb_f r) by lra. cbn [negb]. now rewrite (Rltb_f 0) by lra. }
  destruct FW as (y & YY & FW). assert (UNIQ : forall z, Y z -> z = y) by (intros z Z; unfold Y in *; lra).
  rewrite (at_value 4 _ r y FW). change (- (4))%Z with (-4)%Z. rewrite BACK. split.
  - intros H. exists y. split; [exact YY|exact H].
  - intros (z & Z & H). now rewrite (UNIQ z Z) in H.
Qed.
