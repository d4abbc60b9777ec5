(** Proofs: curve formulas, right inverses, ranges (C72-C74). *)
From Coq Require Import Reals Lra Psatz.
From Verif Require Import M_Base M_Curve M_CurveReal S_Curve S_Curve2 P_Curve.
Open Scope R_scope.

Lemma break_le a b x : 0 < a -> (- b / a <= x <-> 0 <= a * x + b).
Proof.
  intros A. split; intros H.
  - apply (Rmult_le_compat_l a) in H; [|lra]. replace (a * (- b / a)) with (- b) in H by (field; lra). lra.
  - apply Rmult_le_reg_l with a; [lra|]. replace (a * (- b / a)) with (- b) by (field; lra). lra.
Qed.
Lemma break_lt a b x : 0 < a -> (- b / a < x <-> 0 < a * x + b).
Proof.
  intros A. split; intros H.
  - apply (Rmult_lt_compat_l a) in H; [|lra]. replace (a * (- b / a)) with (- b) in H by (field; lra). lra.
  - apply Rmult_lt_reg_l with a; [lra|]. replace (a * (- b / a)) with (- b) by (field; lra). lra.
Qed.

(** ** C72: formulas *)
Lemma type2_formula g a b x : 0 < g -> tol <= a -> eval_real 2 [g; a; b] x = Some (Fin (icc2 g a b x)).
Proof.
  intros G A. pose proof tol_pos as T. unfold icc2. ev. rewrite small_abs by (now apply abs_ge_pos). rewrite div_fin by lra. ar.
  destruct (Rle_dec (- b / a) x) as [L|L].
  - rewrite (Rltb_f x) by exact L. cbn [negb]. apply break_le in L; [|lra]. destruct L as [L|L].
    + rewrite (Rltb_t 0) by exact L. now rewrite pow_fin by exact L.
    + rewrite <- L, power_0. now rewrite Rltb_f by lra.
  - now rewrite (Rltb_t x) by lra.
Qed.
Lemma type2_negative_slope g a b x : a <= - tol -> eval_real 2 [g; a; b] x = Some (Fin 0).
Proof.
  intros A. pose proof tol_pos as T. ev. rewrite small_abs by (rewrite Rabs_left; lra). rewrite div_fin by lra. ar.
  destruct (Rlt_dec x (- b / a)) as [L|L]; [now rewrite (Rltb_t x)|].
  rewrite (Rltb_f x) by lra. cbn [negb]. rewrite Rltb_f; [reflexivity|].
  assert (H : - b / a <= x) by lra. apply (Rmult_le_compat_l (- a)) in H; [|lra].
  replace (- a * (- b / a)) with b in H by (field; lra). lra.
Qed.
Lemma tiny_slope g a b c x : Rabs a < tol -> eval_real 2 [g; a; b] x = Some (Fin 0) /\ eval_real 3 [g; a; b; c] x = Some (Fin 0).
Proof. intros A. split; ev; now rewrite Rltb_t by exact A. Qed.

Lemma type3_value g a b c x : 0 < g -> tol <= a ->
  eval_real 3 [g; a; b; c] x =
  Some (Fin (if Rlt_dec x 0 then c else if Rlt_dec x (- b / a) then c
             else if Req_EM_T x (- b / a) then 0 else power (a * x + b) g + c)).
Proof.
  intros G A. pose proof tol_pos as T. ev. rewrite small_abs by (now apply abs_ge_pos). rewrite div_fin by lra. rewrite max_fin. ar.
  destruct (Rlt_dec x 0) as [X|X].
  { rewrite (Rltb_t x); [reflexivity|]. eapply Rlt_le_trans; [exact X|apply Rmax_r]. }
  destruct (Rlt_dec x (- b / a)) as [L|L].
  { rewrite (Rltb_t x); [reflexivity|]. eapply Rlt_le_trans; [exact L|apply Rmax_l]. }
  rewrite (Rltb_f x) by (apply Rmax_lub; lra). cbn [negb].
  destruct (Req_EM_T x (- b / a)) as [E|E].
  - replace (a * x + b) with 0 by (rewrite E; field; lra). now rewrite Rltb_f by lra.
  - assert (P : 0 < a * x + b) by (apply break_lt; lra). rewrite Rltb_t by exact P. now rewrite pow_fin by exact P.
Qed.
Lemma type3_conforms g a b c x : 0 < g -> tol <= a ->
  (eval_real 3 [g; a; b; c] x = Some (Fin (icc3 g a b c x)) <->
   ~ (- b / a < x < 0) /\ (x = - b / a -> 0 <= x -> c = 0)).
Proof.
  intros G A. pose proof tol_pos as T. rewrite type3_value by assumption. unfold icc3.
  assert (INJ : forall u v, Some (Fin u) = Some (Fin v) <-> u = v) by (split; congruence). rewrite INJ.
  destruct (Rlt_dec x 0) as [X|X]; destruct (Rle_dec (- b / a) x) as [L|L].
  - destruct L as [L|L].
    + split; [|lra]. intros E. exfalso. apply break_lt in L; [|lra]. pose proof (power_gt0 _ g L). lra.
    + replace (a * x + b) with 0 by (rewrite <- L; field; lra). rewrite power_0. split; [intros _; lra|intros _; ring].
  - split; [intros _; lra|reflexivity].
  - destruct (Rlt_dec x (- b / a)); [lra|]. destruct (Req_EM_T x (- b / a)) as [E|E].
    + replace (a * x + b) with 0 by (rewrite E; field; lra). rewrite power_0. split; [intros H; split; [lra|intros _ _; lra]|].
      intros (_ & H). rewrite H by lra. ring.
    + split; [intros _; split; [lra|intros H; contradiction]|reflexivity].
  - destruct (Rlt_dec x (- b / a)); [|lra]. split; [intros _; lra|reflexivity].
Qed.
Lemma type4_formula g a b c d x : 0 < g ->
  eval_real 4 [g; a; b; c; d] x =
    Some (Fin (if Rlt_dec x d then icc4 g a b c d x else if Rlt_dec (a * x + b) 0 then 0 else icc4 g a b c d x)).
Proof.
  intros G. unfold icc4. destruct (Rlt_dec x d) as [L|L].
  - rewrite type4_lower by exact L. destruct (Rle_dec d x); [lra|]. do 2 f_equal. ring.
  - destruct (Rle_dec d x); [|lra]. destruct (Rlt_dec (a * x + b) 0) as [N|N].
    + ev. rewrite (Rltb_f x) by lra. cbn [negb]. now rewrite Rltb_f by lra.
    + apply type4_upper; lra.
Qed.
Lemma type5_formula g a b c d e f x : 0 < g ->
  eval_real 5 [g; a; b; c; d; e; f] x =
    Some (Fin (if Rlt_dec x d then icc5 g a b c d e f x else if Rlt_dec (a * x + b) 0 then e else icc5 g a b c d e f x)).
Proof.
  intros G. unfold icc5. destruct (Rlt_dec x d) as [L|L].
  - destruct (Rle_dec d x); [lra|]. ev. rewrite (Rltb_t x) by exact L. cbn [negb]. do 2 f_equal. ring.
  - destruct (Rle_dec d x); [|lra]. ev. rewrite (Rltb_f x) by lra. cbn [negb].
    destruct (Rlt_dec (a * x + b) 0) as [N|N]; [now rewrite Rltb_f by lra|].
    destruct (Req_dec (a * x + b) 0) as [Z|Z].
    + rewrite Z, power_0, Rltb_f by lra. do 2 f_equal. ring.
    + rewrite Rltb_t by lra. now rewrite pow_fin by lra.
Qed.
Lemma type6_formula g a b c x : 0 < g ->
  eval_real 6 [g; a; b; c] x = Some (Fin (if Rlt_dec (a * x + b) 0 then c else icc6 g a b c x)).
Proof.
  intros G. unfold icc6. ev. destruct (Rlt_dec (a * x + b) 0) as [N|N]; [now rewrite Rltb_t|].
  rewrite Rltb_f by lra. now rewrite pow_fin0 by lra.
Qed.
Lemma type7_formula g a b c d x : 0 < g -> 0 <= x ->
  eval_real 7 [g; a; b; c; d] x = Some (Fin (if Rle_dec (b * power x g + c) 0 then d else icc7 g a b c d x)).
Proof.
  intros G X. unfold icc7. ev. rewrite pow_fin0 by assumption. ar. destruct (Rle_dec (b * power x g + c) 0) as [N|N].
  - now rewrite Rltb_f by exact N.
  - rewrite Rltb_t by lra. cbn [negb]. now rewrite log_fin by lra.
Qed.
Lemma type8_formula a b c d e x : 0 < b -> eval_real 8 [a; b; c; d; e] x = Some (Fin (icc8 a b c d e x)).
Proof. intros B. ev. now rewrite pow_fin by exact B. Qed.

(** Type 4 and 5 parameters express types 1 and 3; type 5 with zero offsets is type 4; type 6 is the power part. *)
Lemma type5_is_4 g a b c d x : 0 < g -> eval_real 5 [g; a; b; c; d; 0; 0] x = eval_real 4 [g; a; b; c; d] x.
Proof.
  intros G. rewrite type5_formula, type4_formula by exact G. unfold icc4, icc5. do 2 f_equal.
  destruct (Rlt_dec x d), (Rlt_dec (a * x + b) 0), (Rle_dec d x); lra.
Qed.

(** ** C73: the forward curve undoes the reverse one *)
Lemma type1_right g y : tol <= Rabs g -> 0 < y \/ (y = 0 /\ 0 < g) ->
  exists x, eval_real (-1) [g] y = Some (Fin x) /\ x = power y (1 / g) /\ eval_real 1 [g] x = Some (Fin y).
Proof.
  intros G H. pose proof (abs_nz g G) as NZ. exists (power y (1 / g)).
  assert (V : ext_pow (Fin y) (Fin (1 / g)) = Fin (power y (1 / g))).
  { destruct H as [H|(-> & H)]; [now apply pow_fin|]. apply pow_fin0; [lra|apply Rdiv_lt_0_compat; lra]. }
  split; [|split; [reflexivity|]].
  - ev. rewrite Rltb_f by (destruct H; lra). rewrite small_abs by exact G. rewrite div_fin by exact NZ. now rewrite V.
  - rewrite type1_val.
    + now rewrite power_undo' by (destruct H; lra).
    + destruct H as [H|(-> & H)]; [left; now apply power_gt0|right; split; [apply power_0|exact H]].
Qed.
Lemma type2_right g a b y : tol <= Rabs g -> tol <= a -> 0 < y -> b <= power y (1 / g) ->
  exists x, eval_real (-2) [g; a; b] y = Some (Fin x) /\ x = (power y (1 / g) - b) / a /\ eval_real 2 [g; a; b] x = Some (Fin y).
Proof.
  intros G A Y B. pose proof tol_pos as T. pose proof (abs_nz g G) as NZ. exists ((power y (1 / g) - b) / a).
  assert (X : 0 <= (power y (1 / g) - b) / a) by (apply Rmult_le_pos; [lra|left; apply Rinv_0_lt_compat; lra]).
  pose proof (power_gt0 y (1 / g) Y) as P.
  split; [|split; [reflexivity|]].
  - ev. rewrite !small_abs by (try exact G; now apply abs_ge_pos). cbn [orb]. rewrite (Rltb_f y) by lra. rewrite div_fin by exact NZ.
    rewrite pow_fin by exact Y. ar. rewrite div_fin by lra. ar. now rewrite Rltb_f by exact X.
  - destruct (type2_inverse g a b ((power y (1 / g) - b) / a) G A X) as (z & E & Z & _).
    + replace (a * ((power y (1 / g) - b) / a) + b) with (power y (1 / g)) by (field; lra). exact P.
    + rewrite E, Z. replace (a * ((power y (1 / g) - b) / a) + b) with (power y (1 / g)) by (field; lra).
      now rewrite power_undo' by lra.
Qed.
Lemma type3_right g a b c y : g <> 0 -> tol <= a -> c < y -> b <= power (y - c) (1 / g) ->
  exists x, eval_real (-3) [g; a; b; c] y = Some (Fin x) /\ x = (power (y - c) (1 / g) - b) / a /\
    eval_real 3 [g; a; b; c] x = Some (Fin y).
Proof.
  intros NZ A Y B. pose proof tol_pos as T. exists ((power (y - c) (1 / g) - b) / a).
  assert (X : 0 <= (power (y - c) (1 / g) - b) / a) by (apply Rmult_le_pos; [lra|left; apply Rinv_0_lt_compat; lra]).
  pose proof (power_gt0 (y - c) (1 / g) ltac:(lra)) as P.
  split; [|split; [reflexivity|]].
  - ev. rewrite !small_abs by (now apply abs_ge_pos). rewrite (Rltb_f y) by lra. cbn [negb]. rewrite Rltb_t by lra. rewrite div_fin by exact NZ.
    rewrite pow_fin by lra. ar. now rewrite div_fin by lra.
  - destruct (type3_inverse g a b c ((power (y - c) (1 / g) - b) / a) NZ A X) as (z & E & Z & _).
    + replace (a * ((power (y - c) (1 / g) - b) / a) + b) with (power (y - c) (1 / g)) by (field; lra). exact P.
    + rewrite E, Z. replace (a * ((power (y - c) (1 / g) - b) / a) + b) with (power (y - c) (1 / g)) by (field; lra).
      rewrite power_undo' by lra. do 2 f_equal. ring.
Qed.
Lemma reverse_break g a b d : 0 < g ->
  (if Rltb (a * d + b) 0 then Fin 0 else ext_pow (Fin (a * d + b)) (Fin g)) = Fin (break_value g a b d).
Proof.
  intros G. unfold break_value. destruct (Rlt_dec (a * d + b) 0) as [N|N].
  - rewrite Rltb_t by exact N. rewrite Rmax_left by lra. now rewrite power_0.
  - rewrite Rltb_f by lra. rewrite Rmax_right by lra. apply pow_fin0; lra.
Qed.
Lemma root_above g a b d y : 0 < g -> 0 < a -> break_value g a b d <= y -> d <= (power y (1 / g) - b) / a.
Proof.
  intros G A H. assert (I : 0 < 1 / g) by (apply Rdiv_lt_0_compat; lra).
  assert (M : Rmax 0 (a * d + b) <= power y (1 / g)).
  { rewrite <- (power_undo (Rmax 0 (a * d + b)) g) by (try lra; apply Rmax_l). apply power_le; [|exact I].
    split; [apply power_ge0|exact H]. }
  pose proof (Rmax_r 0 (a * d + b)). apply Rmult_le_reg_r with a; [exact A|].
  replace ((power y (1 / g) - b) / a * a) with (power y (1 / g) - b) by (field; lra). lra.
Qed.
Lemma type4_right g a b c d y : tol <= g -> tol <= a -> tol <= c ->
  break_value g a b d <= y \/ (y < break_value g a b d /\ y < c * d) ->
  exists x, eval_real (-4) [g; a; b; c; d] y = Some (Fin x) /\ eval_real 4 [g; a; b; c; d] x = Some (Fin y).
Proof.
  intros G A C H. pose proof tol_pos as T. destruct H as [H|(H & L)].
  - assert (Y : 0 <= y) by (eapply Rle_trans; [apply power_ge0|exact H]).
    assert (I : 0 < 1 / g) by (apply Rdiv_lt_0_compat; lra).
    exists ((power y (1 / g) - b) / a). split.
    + ev. rewrite reverse_break by lra. ar. rewrite (Rltb_f y) by exact H. cbn [negb].
      rewrite !small_abs by (now apply abs_ge_pos). cbn [orb]. rewrite div_fin by lra. rewrite pow_fin0 by assumption.
      ar. now rewrite div_fin by lra.
    + assert (E : a * ((power y (1 / g) - b) / a) + b = power y (1 / g)) by (field; lra).
      rewrite type4_upper; [|lra|apply root_above; lra|rewrite E; apply power_ge0]. rewrite E. now rewrite power_undo' by lra.
  - exists (y / c). split.
    + ev. rewrite reverse_break by lra. ar. rewrite (Rltb_t y) by exact H. cbn [negb].
      rewrite !small_abs by (now apply abs_ge_pos). now rewrite div_fin by lra.
    + rewrite type4_lower; [do 2 f_equal; field; lra|]. apply Rmult_lt_reg_r with c; [lra|].
      replace (y / c * c) with y by (field; lra). lra.
Qed.
Lemma type5_right g a b c d e f y : tol <= g -> tol <= a -> tol <= c ->
  (c * d + f <= y /\ break_value g a b d + e <= y) \/ y < c * d + f ->
  exists x, eval_real (-5) [g; a; b; c; d; e; f] y = Some (Fin x) /\ eval_real 5 [g; a; b; c; d; e; f] x = Some (Fin y).
Proof.
  intros G A C H. pose proof tol_pos as T. destruct H as [(L & H)|L].
  - assert (Y : 0 <= y - e) by (assert (0 <= break_value g a b d) by apply power_ge0; lra).
    assert (I : 0 < 1 / g) by (apply Rdiv_lt_0_compat; lra).
    exists ((power (y - e) (1 / g) - b) / a). split.
    + ev. rewrite (Rltb_f y) by exact L. cbn [negb]. rewrite Rltb_f by exact Y.
      rewrite !small_abs by (now apply abs_ge_pos). cbn [orb]. rewrite div_fin by lra. rewrite pow_fin0 by assumption.
      ar. now rewrite div_fin by lra.
    + assert (E : a * ((power (y - e) (1 / g) - b) / a) + b = power (y - e) (1 / g)) by (field; lra).
      assert (D : d <= (power (y - e) (1 / g) - b) / a) by (apply root_above; lra).
      rewrite type5_formula by lra. unfold icc5. rewrite E. pose proof (power_ge0 (y - e) (1 / g)).
      destruct (Rlt_dec _ d); [lra|]. destruct (Rlt_dec (power (y - e) (1 / g)) 0); [lra|]. destruct (Rle_dec d _); [|lra].
      rewrite power_undo' by lra. do 2 f_equal. ring.
  - exists ((y - f) / c). split.
    + ev. rewrite (Rltb_t y) by exact L. cbn [negb]. rewrite !small_abs by (now apply abs_ge_pos). now rewrite div_fin by lra.
    + assert (D : (y - f) / c < d).
      { apply Rmult_lt_reg_r with c; [lra|]. replace ((y - f) / c * c) with (y - f) by (field; lra). lra. }
      rewrite type5_formula by lra. unfold icc5. destruct (Rlt_dec _ d); [|lra]. destruct (Rle_dec d _); [lra|].
      do 2 f_equal. field. lra.
Qed.
Lemma type6_right g a b c y : 0 < g -> tol <= Rabs a -> c <= y ->
  exists x, eval_real (-6) [g; a; b; c] y = Some (Fin x) /\ x = (power (y - c) (1 / g) - b) / a /\
    eval_real 6 [g; a; b; c] x = Some (Fin y).
Proof.
  intros G A Y. pose proof (abs_nz a A) as NA. assert (I : 0 < 1 / g) by (apply Rdiv_lt_0_compat; lra).
  exists ((power (y - c) (1 / g) - b) / a). split; [|split; [reflexivity|]].
  - ev. rewrite small_abs by exact A. rewrite Rltb_f by lra. rewrite div_fin by lra. rewrite pow_fin0 by lra. ar. now rewrite div_fin.
  - rewrite type6_formula by exact G. unfold icc6.
    replace (a * ((power (y - c) (1 / g) - b) / a) + b) with (power (y - c) (1 / g)) by (field; exact NA).
    pose proof (power_ge0 (y - c) (1 / g)). destruct (Rlt_dec _ 0); [lra|]. rewrite power_undo' by lra. do 2 f_equal. ring.
Qed.
Lemma log_ten x : log_10 (power 10 x) = x.
Proof.
  rewrite power_pos by lra. unfold Rpower, log_10. rewrite ln_exp. pose proof ln10_pos. field. lra.
Qed.
Lemma type7_right g a b c d y : tol <= g -> tol <= a -> tol <= b -> c <= power 10 ((y - d) / a) ->
  exists x, eval_real (-7) [g; a; b; c; d] y = Some (Fin x) /\ 0 <= x /\ eval_real 7 [g; a; b; c; d] x = Some (Fin y).
Proof.
  intros G A B C. pose proof tol_pos as T. assert (I : 0 < 1 / g) by (apply Rdiv_lt_0_compat; lra).
  set (z := (power 10 ((y - d) / a) - c) / b).
  assert (Z : 0 <= z) by (apply Rmult_le_pos; [lra|left; apply Rinv_0_lt_compat; lra]).
  exists (power z (1 / g)). split; [|split; [apply power_ge0|]].
  - ev. rewrite !Rltb_f by assumption. cbn [orb]. rewrite div_fin by lra. rewrite pow_fin by lra. ar. rewrite div_fin by lra.
    fold z. rewrite div_fin by lra. now rewrite pow_fin0.
  - rewrite type7_formula by (try lra; apply power_ge0). unfold icc7. rewrite power_undo' by lra.
    assert (E : b * z + c = power 10 ((y - d) / a)) by (unfold z; field; lra). rewrite E.
    pose proof (power_gt0 10 ((y - d) / a) ltac:(lra)). destruct (Rle_dec _ 0); [lra|]. rewrite log_ten. do 2 f_equal. field. lra.
Qed.
Lemma type8_right a b c d e y : tol <= a -> 0 < b -> b <> 1 -> tol <= Rabs c -> e < y ->
  exists x, eval_real (-8) [a; b; c; d; e] y = Some (Fin x) /\ x = (log_10 ((y - e) / a) / log_10 b - d) / c /\
    eval_real 8 [a; b; c; d; e] x = Some (Fin y).
Proof.
  intros A B B1 C Y. pose proof tol_pos as T. pose proof (abs_nz c C) as NC. pose proof (log_nz b B B1) as LN.
  assert (P : 0 < (y - e) / a) by (apply Rdiv_lt_0_compat; lra).
  exists ((log_10 ((y - e) / a) / log_10 b - d) / c). split; [|split; [reflexivity|]].
  - ev. rewrite Rltb_f by lra. rewrite !small_abs by (try exact C; now apply abs_ge_pos). cbn [orb]. rewrite div_fin by lra.
    rewrite !log_fin by assumption. rewrite div_fin by exact LN. ar. now rewrite div_fin.
  - rewrite type8_formula by exact B. unfold icc8.
    replace (c * ((log_10 ((y - e) / a) / log_10 b - d) / c) + d) with (log_10 ((y - e) / a) / log_10 b) by (field; now split).
    rewrite power_pos by exact B. unfold Rpower, log_10. pose proof ln10_pos.
    assert (LB : ln b <> 0). { intros Z. apply LN. unfold log_10. rewrite Z. unfold Rdiv. ring. }
    replace (ln ((y - e) / a) / ln 10 / (ln b / ln 10) * ln b) with (ln ((y - e) / a)) by (field; repeat split; try assumption; lra).
    rewrite exp_ln by exact P. do 2 f_equal. field. lra.
Qed.
Lemma type108_right g y : tol <= g -> 0 <= y <= 1 ->
  exists x, eval_real (-108) [g] y = Some (Fin x) /\ 0 <= x <= 1 /\ x = 1 - power (1 - power y g) g /\ eval_real 108 [g] x = Some (Fin y).
Proof.
  intros G Y. pose proof tol_pos as T. pose proof (power_unit y g Y ltac:(lra)) as U.
  pose proof (power_unit (1 - power y g) g ltac:(lra) ltac:(lra)) as V.
  exists (1 - power (1 - power y g) g). split; [|split; [lra|split; [reflexivity|]]].
  - ev. rewrite pow_fin0 by lra. ar. now rewrite pow_fin0 by lra.
  - rewrite type108_val by lra. unfold s_curve. replace (1 - (1 - power (1 - power y g) g)) with (power (1 - power y g) g) by ring.
    rewrite power_undo by lra. replace (1 - (1 - power y g)) with (power y g) by ring. now rewrite power_undo by lra.
Qed.

(** ** C74: ranges *)
Lemma type1_range g r : 0 < g -> 0 <= r <= 1 -> exists y, eval_real 1 [g] r = Some (Fin y) /\ 0 <= y <= 1.
Proof.
  intros G R0. exists (power r g). split; [apply type1_val; lra|]. now apply power_unit.
Qed.
Lemma type108_range g r : tol <= g -> 0 <= r <= 1 -> exists y, eval_real 108 [g] r = Some (Fin y) /\ 0 <= y <= 1.
Proof.
  intros G R0. pose proof tol_pos. exists (s_curve g r). split; [now apply type108_val|]. unfold s_curve.
  assert (I : 0 < 1 / g) by (apply Rdiv_lt_0_compat; lra).
  pose proof (power_unit (1 - r) (1 / g) ltac:(lra) I). apply power_unit; lra.
Qed.
Lemma type109_range k r : k <> 0 -> 0 <= r <= 1 -> exists y, eval_real 109 [k] r = Some (Fin y) /\ 0 <= y <= 1.
Proof.
  intros N R0. exists (sigmoid k r). split; [now apply type109_val|].
  destruct (type109_ends k N) as (E0 & E1 & _). rewrite type109_val in E0, E1 by exact N.
  injection E0 as E0. injection E1 as E1. split.
  - destruct R0 as ([L| <-] & _); [|lra]. pose proof (sigmoid_inc k 0 r N L). lra.
  - destruct R0 as (_ & [L| ->]); [|lra]. pose proof (sigmoid_inc k r 1 N L). lra.
Qed.
Lemma type4_range g a b c d r : 0 < g -> 0 < a -> 0 <= c -> c * d <= 1 -> 0 <= a * d + b -> a + b <= 1 -> 0 <= r <= 1 ->
  exists y, eval_real 4 [g; a; b; c; d] r = Some (Fin y) /\ 0 <= y <= 1.
Proof.
  intros G A C CD AD AB R0. destruct (Rlt_dec r d) as [L|L].
  - exists (r * c). split; [now apply type4_lower|]. split; [apply Rmult_le_pos; lra|].
    apply Rle_trans with (c * d); [|exact CD]. rewrite Rmult_comm. apply Rmult_le_compat_l; lra.
  - assert (E : 0 <= a * r + b) by (assert (a * d <= a * r) by (apply Rmult_le_compat_l; lra); lra).
    exists (power (a * r + b) g). split; [apply type4_upper; lra|]. apply power_unit; [|exact G].
    assert (a * r <= a * 1) by (apply Rmult_le_compat_l; lra). lra.
Qed.
Lemma type2_nonneg g a b r : 0 < g -> tol <= Rabs a ->
  exists y, eval_real 2 [g; a; b] r = Some (Fin y) /\ 0 <= y.
Proof.
  intros G A. pose proof tol_pos. destruct (Rle_dec tol a) as [P|P].
  - exists (icc2 g a b r). split; [now apply type2_formula|]. unfold icc2. destruct (Rle_dec _ r); [apply power_ge0|lra].
  - exists 0. split; [|lra]. apply type2_negative_slope. unfold Rabs in A. destruct (Rcase_abs a); lra.
Qed.
