(** Exactly which values the curves give back after their reverses, for all parameters. *)
From Coq Require Import Reals Lra ZArith Lia.
From Verif Require Import M_Base M_Curve M_CurveReal S_Curve S_Curve2 S_Jump S_Undo P_Curve P_Curve2 P_Formula P_Jump P_Jump2 P_Undo.
Open Scope R_scope.

Lemma image t ps y : undoes (- t) ps y <-> exists x, undoes t ps x /\ eval_real t ps x = Some (Fin y).
Proof.
  unfold undoes. rewrite Z.opp_involutive. split.
  - intros (x & B & F). exists x. split; [exists y|]; tauto.
  - intros (x & (y' & F & B) & F'). rewrite F in F'. injection F' as <-. exists x. tauto.
Qed.
Lemma image_to t ps y (A : R -> Prop) (P : Prop) : (forall x, undoes t ps x <-> A x) ->
  (forall x, A x -> eval_real t ps x = Some (Fin y) -> P) -> (P -> exists x, A x /\ eval_real t ps x = Some (Fin y)) -> (undoes (- t) ps y <-> P).
Proof.
  intros E H1 H2. rewrite image. split.
  - intros (x & U & F). apply (H1 x); [now apply E|exact F].
  - intros H. destruct (H2 H) as (x & X & F). exists x. split; [now apply E|exact F].
Qed.
Lemma fin_of u v : Some (Fin u) = Some (Fin v) -> u = v. Proof. apply fin_iff. Qed.

(** ** Type 1 *)
Lemma redo1 g y :
  undoes (-1) [g] y <->
  (Rabs g < tol /\ y = power (10 ^ 22) g) \/ (tol <= Rabs g /\ (0 < y \/ (y = 0 /\ 0 < g))) \/ (y < 0 /\ Rabs (g - 1) < tol).
Proof.
  pose proof tol_pos as T. assert (T22 : 0 < 10 ^ 22) by (apply pow_lt; lra).
  apply (image_to 1 _ _ _ _ (undo1 g)).
  - intros x [(X & H)|[(-> & H)|(X & H)]] F.
    + rewrite type1_val in F by now left. apply fin_of in F. subst y. pose proof (power_gt0 x g X). destruct (Rlt_dec (Rabs g) tol) as [S|S].
      * left. split; [exact S|]. destruct H as [H| ->]; [lra|reflexivity].
      * right. left. split; [lra|now left].
    + rewrite type1_val, power_0 in F by (right; lra). apply fin_of in F. right. left. split; [now apply abs_ge_pos|]. right. split; [now symmetry|lra].
    + rewrite (proj1 (type1_negative g x X)) in F. apply fin_of in F. assert (Rabs g < 1 + tol) by (unfold Rabs in *; destruct (Rcase_abs g), (Rcase_abs (g - 1)); lra).
      destruct (Rlt_dec (Rabs g) (1 + tol)); [|lra]. subst y. right. right. tauto.
  - intros [(S & ->)|[(S & [Y|(-> & G)])|(Y & S)]].
    + exists (10 ^ 22). split; [left; split; [exact T22|now right]|]. apply type1_val. now left.
    + pose proof (abs_nz g S) as NG. pose proof (power_gt0 y (1 / g) Y) as P. exists (power y (1 / g)). split; [left; split; [exact P|now left]|].
      rewrite type1_val by now left. now rewrite power_undo' by lra.
    + exists 0. split; [right; left; rewrite Rabs_right in S; lra|]. rewrite type1_val by (right; lra). now rewrite power_0.
    + exists y. split; [right; right; tauto|]. rewrite (proj1 (type1_negative g y Y)).
      assert (Rabs g < 1 + tol) by (unfold Rabs in *; destruct (Rcase_abs g), (Rcase_abs (g - 1)); lra). destruct (Rlt_dec (Rabs g) (1 + tol)); [reflexivity|lra].
Qed.

(** ** Type 2 *)
Lemma val2 g a b x : tol <= Rabs a ->
  eval_real 2 [g; a; b] x = Some (Fin (if Rlt_dec 0 a then (if Rlt_dec 0 (a * x + b) then power (a * x + b) g else 0) else 0)).
Proof.
  intros A. pose proof tol_pos as T. destruct (Rlt_dec 0 a) as [P|P].
  - rewrite Rabs_right in A by lra. rewrite type2_any by exact A. unfold icc2. assert (E : a * (- b / a) = - b) by (field; lra).
    destruct (Rle_dec (- b / a) x) as [Q|Q].
    + assert (- b <= a * x) by (rewrite <- E; apply Rmult_le_compat_l; lra). destruct (Rlt_dec 0 (a * x + b)) as [L|L]; [reflexivity|]. replace (a * x + b) with 0 by lra. now rewrite power_0.
    + assert (a * x < - b) by (rewrite <- E; apply Rmult_lt_compat_l; lra). destruct (Rlt_dec 0 (a * x + b)); [lra|reflexivity].
  - apply type2_negative_slope. rewrite Rabs_left1 in A by lra. lra.
Qed.
Lemma redo2 g a b y :
  undoes (-2) [g; a; b] y <->
  (~ usable g a /\ ((tol <= a /\ 0 < b /\ y = power b g) \/ ((a < tol \/ b <= 0) /\ y = 0))) \/
  (usable g a /\ ((0 < y /\ 0 < a /\ b <= power y (1 / g)) \/ (y = 0 /\ (a < 0 \/ (0 < g /\ b <= 0))))).
Proof.
  pose proof tol_pos as T. apply (image_to 2 _ _ _ _ (undo2 g a b)).
  - intros x H F. destruct (Rlt_dec (Rabs a) tol) as [S|S].
    { left. rewrite (tiny_slope g a b 0 x S) in F || (revert F; ev; rewrite Rltb_t by exact S; intros F). apply fin_of in F. split; [apply tiny_usable; now right|].
      right. split; [left; unfold Rabs in S; destruct (Rcase_abs a); lra|now symmetry]. }
    assert (UA : tol <= Rabs a) by lra. rewrite val2 in F by exact UA. apply fin_of in F. destruct H as [(NU & ->)|(U & H)].
    + left. split; [exact NU|]. rewrite Rmult_0_r, Rplus_0_l in F. destruct (Rlt_dec 0 a) as [P|P]; [destruct (Rlt_dec 0 b) as [B|B]|].
      * left. rewrite Rabs_right in UA by lra. split; [exact UA|]. split; [exact B|now symmetry].
      * right. split; [right; lra|now symmetry].
      * right. split; [left; lra|now symmetry].
    + right. split; [exact U|]. destruct (usable_nz g a U) as (NG & NA). destruct H as [(A & X & H)|(H1 & H2)].
      * left. destruct (Rlt_dec 0 a); [|lra]. destruct (Rlt_dec 0 (a * x + b)); [|lra]. subst y. split; [now apply power_gt0|]. split; [exact A|]. rewrite power_undo by lra.
        assert (0 <= a * x) by (apply Rmult_le_pos; lra). lra.
      * assert (Y : y = 0) by (destruct (Rlt_dec 0 a); [destruct (Rlt_dec 0 (a * x + b)); lra|lra]). right. split; [exact Y|]. destruct (Rlt_dec a 0) as [N|N]; [now left|right].
        destruct H2 as [(G & E)|H2]; [|lra]. split; [exact G|]. pose proof (Rmax_l 0 (- b / a)) as M. rewrite <- E in M. assert (0 <= a * x) by (apply Rmult_le_pos; lra). lra.
  - intros [(NU & H)|(U & H)].
    + exists 0. split; [left; tauto|]. destruct (Rlt_dec (Rabs a) tol) as [S|S].
      * assert (a < tol) by (unfold Rabs in S; destruct (Rcase_abs a); lra). destruct H as [H|(_ & ->)]; [lra|]. ev. now rewrite Rltb_t by exact S.
      * rewrite val2 by lra. rewrite Rmult_0_r, Rplus_0_l. destruct H as [(A & B & ->)|([A|B] & ->)].
        -- destruct (Rlt_dec 0 a); [|lra]. destruct (Rlt_dec 0 b); [reflexivity|lra].
        -- destruct (Rlt_dec 0 a) as [P|P]; [|reflexivity]. exfalso. rewrite Rabs_right in S; lra.
        -- destruct (Rlt_dec 0 b); [lra|]. now destruct (Rlt_dec 0 a).
    + destruct (usable_nz g a U) as (NG & NA). assert (UA : tol <= Rabs a) by apply U. destruct H as [(Y & A & B)|(-> & H)].
      * pose proof (power_gt0 y (1 / g) Y) as P. exists ((power y (1 / g) - b) / a). assert (E : a * ((power y (1 / g) - b) / a) + b = power y (1 / g)) by (field; lra). split.
        -- right. split; [exact U|]. left. rewrite E. split; [exact A|]. split; [exact P|]. apply Rmult_le_reg_l with a; [exact A|]. replace (a * ((power y (1 / g) - b) / a)) with (power y (1 / g) - b) by (field; lra). lra.
        -- rewrite val2 by exact UA. rewrite E. destruct (Rlt_dec 0 a); [|lra]. destruct (Rlt_dec 0 (power y (1 / g))); [|lra]. now rewrite power_undo' by lra.
      * destruct (Rlt_dec a 0) as [N|N].
        -- exists (if Rlt_dec 0 g then Rmax 0 (- b / a) else 0). split.
           ++ right. split; [exact U|]. right. split; [now left|]. destruct (Rlt_dec 0 g); [left; tauto|right; lra].
           ++ rewrite val2 by exact UA. destruct (Rlt_dec 0 a); [lra|reflexivity].
        -- destruct H as [H|(G & B)]; [lra|]. assert (AP : 0 < a) by lra. exists (- b / a). assert (E : a * (- b / a) + b = 0) by (field; lra). split.
           ++ right. split; [exact U|]. right. split; [right; lra|]. left. split; [exact G|]. rewrite Rmax_right; [reflexivity|]. apply Rmult_le_reg_l with a; [exact AP|]. lra.
           ++ rewrite val2 by exact UA. rewrite E. destruct (Rlt_dec 0 0); [lra|]. now destruct (Rlt_dec 0 a).
Qed.

(** ** Type 3 *)
Lemma val3 g a b c x : tol <= Rabs a ->
  eval_real 3 [g; a; b; c] x =
    Some (Fin (if Rlt_dec x (Rmax (- b / a) 0) then c else if Rlt_dec 0 (a * x + b) then power (a * x + b) g + c else 0)).
Proof.
  intros UA. pose proof (abs_nz a UA) as NA. ev. rewrite small_abs by exact UA. rewrite div_fin by exact NA. rewrite max_fin. ar. destruct (Rlt_dec x (Rmax (- b / a) 0)) as [L|L].
  - now rewrite (Rltb_t x) by exact L.
  - rewrite (Rltb_f x) by lra. cbn [negb]. destruct (Rlt_dec 0 (a * x + b)) as [P|P]; [rewrite (Rltb_t 0) by exact P; now rewrite pow_fin by exact P|now rewrite (Rltb_f 0) by lra].
Qed.
Lemma redo3 g a b c y :
  undoes (-3) [g; a; b; c] y <->
  (Rabs a < tol /\ y = 0) \/
  (tol <= Rabs a /\
   ((c < y /\ 0 < a /\ ((g <> 0 /\ b <= power (y - c) (1 / g)) \/ (g = 0 /\ y = c + 1 /\ b <= 1))) \/
    (y = c /\ (0 < - b / a \/ (c = 0 /\ b <= 0))) \/
    (y = 0 /\ 0 <= - b / a /\ (0 < c \/ (g = 0 /\ -1 < c < 0))))).
Proof.
  pose proof tol_pos as T. apply (image_to 3 _ _ _ _ (undo3 g a b c)).
  - intros x [(S & ->)|(UA & H)] F; [left; split; [exact S|]; revert F; ev; rewrite Rltb_t by exact S; intros F; apply fin_of in F; now symmetry|].
    pose proof (abs_nz a UA) as NA. right. split; [exact UA|]. rewrite val3 in F by exact UA. apply fin_of in F. destruct H as [(L & ->)|(L & H)].
    + right. left. destruct (Rlt_dec 0 (Rmax (- b / a) 0)); [|lra]. split; [now symmetry|]. left. unfold Rmax in L. destruct (Rle_dec (- b / a) 0); lra.
    + destruct (Rlt_dec x (Rmax (- b / a) 0)); [lra|]. pose proof (Rmax_l (- b / a) 0) as M1. pose proof (Rmax_r (- b / a) 0) as M2.
      assert (E : a * (- b / a) = - b) by (now field). destruct H as [(P & H)|(P & H)].
      * left. destruct (Rlt_dec 0 (a * x + b)); [|lra]. pose proof (power_gt0 (a * x + b) g P) as PP. split; [lra|].
        assert (A : 0 < a).
        { destruct (Rlt_dec 0 a) as [A|A]; [exact A|exfalso]. assert (0 <= - a * (x - - b / a)) by (apply Rmult_le_pos; lra). lra. }
        split; [exact A|]. assert (0 <= a * x) by (apply Rmult_le_pos; lra). replace (y - c) with (power (a * x + b) g) by lra. destruct (Req_dec g 0) as [->|NG].
        -- right. destruct H as [H|H]; [lra|]. rewrite H, power_1l in F. lra.
        -- left. split; [exact NG|]. rewrite power_undo by lra. lra.
      * destruct (Rlt_dec 0 (a * x + b)); [lra|]. destruct H as [(C & ->)|(Z & H)].
        -- right. left. split; [lra|]. right. lra.
        -- right. right. split; [lra|]. split; [|exact H]. replace (- b / a) with x; [lra|]. apply Rmult_eq_reg_l with a; [lra|exact NA].
  - intros [(S & ->)|(UA & H)]; [exists 0; split; [left; tauto|]; ev; now rewrite Rltb_t by exact S|]. pose proof (abs_nz a UA) as NA. assert (E : a * (- b / a) = - b) by (now field).
    assert (BASE : forall v, 0 < a -> 0 < v -> b <= v -> Rmax (- b / a) 0 <= (v - b) / a /\ a * ((v - b) / a) + b = v).
    { intros v A V B. assert (E2 : a * ((v - b) / a) = v - b) by (now field). split; [|lra]. apply Rmax_lub; (apply Rmult_le_reg_l with a; [exact A|lra]). }
    destruct H as [(Y & A & H)|[(-> & H)|(-> & B & H)]].
    + assert (V : exists v, 0 < v /\ b <= v /\ y = power v g + c /\ (g <> 0 \/ v = 1)).
      { destruct H as [(NG & B)|(-> & -> & B)].
        - exists (power (y - c) (1 / g)). split; [apply power_gt0; lra|]. split; [exact B|]. rewrite power_undo' by lra. split; [lra|now left].
        - exists 1. rewrite power_1l. split; [lra|]. split; [exact B|]. split; [lra|now right]. }
      destruct V as (v & V & B & -> & G). destruct (BASE v A V B) as (M & E2). exists ((v - b) / a). rewrite E2. split.
      * right. split; [exact UA|]. right. split; [exact M|]. left. split; [exact V|exact G].
      * rewrite val3, E2 by exact UA. destruct (Rlt_dec ((v - b) / a) (Rmax (- b / a) 0)); [lra|]. destruct (Rlt_dec 0 v); [reflexivity|lra].
    + exists 0. destruct (Rlt_dec 0 (- b / a)) as [P|P].
      * assert (M : 0 < Rmax (- b / a) 0) by (rewrite Rmax_left; lra). split; [right; split; [exact UA|left; split; [exact M|reflexivity]]|].
        rewrite val3 by exact UA. destruct (Rlt_dec 0 (Rmax (- b / a) 0)); [reflexivity|lra].
      * destruct H as [H|(-> & B)]; [lra|]. assert (M : Rmax (- b / a) 0 = 0) by (apply Rmax_right; lra). split.
        -- right. split; [exact UA|]. right. split; [lra|]. right. split; [lra|]. left. tauto.
        -- rewrite val3, M by exact UA. destruct (Rlt_dec 0 0); [lra|]. destruct (Rlt_dec 0 (a * 0 + b)); [lra|reflexivity].
    + exists (- b / a). assert (M : Rmax (- b / a) 0 = - b / a) by (apply Rmax_left; lra). split.
      * right. split; [exact UA|]. right. split; [lra|]. right. split; [lra|]. right. split; [lra|exact H].
      * rewrite val3, M by exact UA. destruct (Rlt_dec (- b / a) (- b / a)); [lra|]. destruct (Rlt_dec 0 (a * (- b / a) + b)); [lra|reflexivity].
Qed.

(** ** Types 4 and 5 *)
Lemma redo4 g a b c d y : tol <= g -> tol <= a -> tol <= c ->
  (undoes (-4) [g; a; b; c; d] y <-> break_value g a b d <= y \/ (y < break_value g a b d /\ y < c * d)).
Proof.
  intros G A C. pose proof tol_pos as T. assert (NA : a <> 0) by lra. assert (NC : c <> 0) by lra. set (B := break_value g a b d).
  assert (B0 : 0 <= B) by apply power_ge0.
  assert (VAL : forall x, eval_real 4 [g; a; b; c; d] x = Some (Fin (if Rlt_dec x d then c * x else power (Rmax 0 (a * x + b)) g))).
  { intros x. ev. destruct (Rlt_dec x d) as [L|L]; [rewrite (Rltb_t x) by exact L; cbn [negb]; do 2 f_equal; ring|]. rewrite (Rltb_f x) by lra. cbn [negb].
    destruct (Rlt_dec 0 (a * x + b)) as [P|P].
    - rewrite (Rltb_t 0) by exact P. rewrite pow_fin by exact P. now rewrite Rmax_right by lra.
    - rewrite (Rltb_f 0) by lra. rewrite Rmax_left by lra. now rewrite power_0. }
  apply (image_to 4 _ _ _ _ (fun x => undo4 g a b c d x G A C)); fold B.
  - intros x H F. rewrite VAL in F. apply fin_of in F. subst y. destruct H as [(L & H)|(L & H)].
    + destruct (Rlt_dec x d); [|lra]. right. split; [exact H|]. apply Rmult_lt_compat_l; lra.
    + destruct (Rlt_dec x d); [lra|]. left. unfold B, break_value. apply power_le; [|lra]. split; [apply Rmax_l|]. assert (a * d <= a * x) by (apply Rmult_le_compat_l; lra).
      apply Rmax_lub; [apply Rmax_l|]. apply Rle_trans with (a * x + b); [lra|apply Rmax_r].
  - intros [H|(H1 & H2)].
    + assert (Y : 0 <= y) by lra. pose proof (power_ge0 y (1 / g)) as P. exists ((power y (1 / g) - b) / a). assert (E : a * ((power y (1 / g) - b) / a) + b = power y (1 / g)) by (now field).
      assert (D : d <= (power y (1 / g) - b) / a).
      { apply Rmult_le_reg_l with a; [lra|]. replace (a * ((power y (1 / g) - b) / a)) with (power y (1 / g) - b) by (now field).
        assert (power B (1 / g) <= power y (1 / g)) by (apply power_le; [lra|apply inv_pos; lra]). unfold B, break_value in H0. rewrite power_undo in H0 by (apply Rmax_l || lra).
        pose proof (Rmax_r 0 (a * d + b)). lra. }
      split; [right; lra|]. rewrite VAL, E. destruct (Rlt_dec ((power y (1 / g) - b) / a) d); [lra|]. rewrite Rmax_right by exact P. now rewrite power_undo' by lra.
    + exists (y / c). assert (E : c * (y / c) = y) by (now field). assert (L : y / c < d) by (apply Rmult_lt_reg_l with c; lra).
      split; [left; rewrite E; tauto|]. rewrite VAL. destruct (Rlt_dec (y / c) d); [now rewrite E|lra].
Qed.
Lemma redo5 g a b c d e f y : tol <= g -> tol <= a -> tol <= c ->
  (undoes (-5) [g; a; b; c; d; e; f] y <-> y < c * d + f \/ (c * d + f <= y /\ e <= y /\ a * d + b <= power (y - e) (1 / g))).
Proof.
  intros G A C. pose proof tol_pos as T. assert (NA : a <> 0) by lra. assert (NC : c <> 0) by lra.
  assert (VAL : forall x, eval_real 5 [g; a; b; c; d; e; f] x = Some (Fin (if Rlt_dec x d then c * x + f else power (Rmax 0 (a * x + b)) g + e))).
  { intros x. ev. destruct (Rlt_dec x d) as [L|L]; [rewrite (Rltb_t x) by exact L; cbn [negb]; do 2 f_equal; ring|]. rewrite (Rltb_f x) by lra. cbn [negb].
    destruct (Rlt_dec 0 (a * x + b)) as [P|P].
    - rewrite (Rltb_t 0) by exact P. rewrite pow_fin by exact P. now rewrite Rmax_right by lra.
    - rewrite (Rltb_f 0) by lra. rewrite Rmax_left by lra. rewrite power_0. do 2 f_equal. ring. }
  apply (image_to 5 _ _ _ _ (fun x => undo5 g a b c d e f x G A C)).
  - intros x H F. rewrite VAL in F. apply fin_of in F. subst y. destruct (Rlt_dec x d) as [L|L].
    + left. assert (c * x < c * d) by (apply Rmult_lt_compat_l; lra). lra.
    + destruct H as [H|(P & H)]; [lra|]. right. rewrite Rmax_right by exact P. pose proof (power_ge0 (a * x + b) g). split; [exact H|]. split; [lra|].
      replace (power (a * x + b) g + e - e) with (power (a * x + b) g) by ring. rewrite power_undo by lra. assert (a * d <= a * x) by (apply Rmult_le_compat_l; lra). lra.
  - intros [H|(H1 & H2 & H3)].
    + exists ((y - f) / c). assert (E : c * ((y - f) / c) + f = y) by (now field). assert (L : (y - f) / c < d) by (apply Rmult_lt_reg_l with c; lra).
      split; [now left|]. rewrite VAL. destruct (Rlt_dec ((y - f) / c) d); [now rewrite E|lra].
    + pose proof (power_ge0 (y - e) (1 / g)) as P. exists ((power (y - e) (1 / g) - b) / a). assert (E : a * ((power (y - e) (1 / g) - b) / a) + b = power (y - e) (1 / g)) by (now field).
      assert (D : d <= (power (y - e) (1 / g) - b) / a) by (apply Rmult_le_reg_l with a; lra). rewrite E. rewrite power_undo' by lra. split; [right; lra|].
      rewrite VAL, E. destruct (Rlt_dec ((power (y - e) (1 / g) - b) / a) d); [lra|]. rewrite Rmax_right by exact P. rewrite power_undo' by lra. do 2 f_equal. ring.
Qed.

(** ** Type 6 *)
Lemma val6 g a b c x :
  eval_real 6 [g; a; b; c] x = Some (if Rlt_dec (a * x + b) 0 then Fin c else ext_add (ext_pow (Fin (a * x + b)) (Fin g)) (Fin c)).
Proof. ev. destruct (Rlt_dec (a * x + b) 0) as [P|P]; [now rewrite Rltb_t|now rewrite Rltb_f by lra]. Qed.
Lemma redo6 g a b c y :
  undoes (-6) [g; a; b; c] y <->
  (Rabs a < tol /\ ((b < 0 /\ y = c) \/ (0 < b /\ y = power b g + c) \/ (b = 0 /\ ((0 < g /\ y = c) \/ (g = 0 /\ y = 1 + c))))) \/
  (tol <= Rabs a /\ ((y = c /\ 0 < g) \/ (c < y /\ (g <> 0 \/ y = 1 + c)))).
Proof.
  pose proof tol_pos as T. apply (image_to 6 _ _ _ _ (undo6 g a b c)).
  - intros x H F. rewrite val6 in F. destruct H as [(S & -> & H)|(UA & H)].
    + left. split; [exact S|]. rewrite Rmult_0_r, Rplus_0_l in F. destruct (Rlt_dec b 0) as [B|B]; [apply fin_of in F; left; split; [exact B|now symmetry]|].
      destruct (Rlt_dec 0 b) as [P|P]; [rewrite pow_fin, add_fin in F by exact P; apply fin_of in F; right; left; split; [exact P|now symmetry]|].
      assert (b = 0) by lra. subst b. specialize (H eq_refl). right. right. split; [reflexivity|]. destruct (Req_dec g 0) as [->|NG].
      * rewrite pow_e0, add_fin in F. apply fin_of in F. right. split; [reflexivity|now symmetry].
      * rewrite pow_fin0, power_0, add_fin in F by lra. apply fin_of in F. left. lra.
    + right. split; [exact UA|]. destruct H as [(Z & G)|(P & H)].
      * rewrite Z in F. destruct (Rlt_dec 0 0); [lra|]. rewrite pow_fin0, power_0, add_fin in F by lra. apply fin_of in F. left. lra.
      * destruct (Rlt_dec (a * x + b) 0); [lra|]. rewrite pow_fin, add_fin in F by exact P. apply fin_of in F. pose proof (power_gt0 (a * x + b) g P). right. split; [lra|].
        destruct H as [H|H]; [now left|right]. rewrite H, power_1l in F. now symmetry.
  - intros [(S & H)|(UA & H)].
    + exists 0. rewrite val6, Rmult_0_r, Rplus_0_l. destruct H as [(B & ->)|[(B & ->)|(-> & [(G & ->)|(-> & ->)])]].
      * split; [left; split; [exact S|]; split; [reflexivity|]; intros Z; lra|]. destruct (Rlt_dec b 0); [reflexivity|lra].
      * split; [left; split; [exact S|]; split; [reflexivity|]; intros Z; lra|]. destruct (Rlt_dec b 0); [lra|]. now rewrite pow_fin by exact B.
      * split; [left; split; [exact S|]; split; [reflexivity|]; intros Z; lra|]. destruct (Rlt_dec 0 0); [lra|]. rewrite pow_fin0, power_0, add_fin by lra. do 2 f_equal. ring.
      * split; [left; split; [exact S|]; split; [reflexivity|]; intros Z; lra|]. destruct (Rlt_dec 0 0); [lra|]. now rewrite pow_e0.
    + pose proof (abs_nz a UA) as NA. assert (BASE : forall v, a * ((v - b) / a) + b = v) by (intros v; now field). destruct H as [(-> & G)|(Y & H)].
      * exists ((0 - b) / a). rewrite val6, BASE. split; [right; split; [exact UA|left; tauto]|]. destruct (Rlt_dec 0 0); [lra|]. rewrite pow_fin0, power_0, add_fin by lra. do 2 f_equal. ring.
      * assert (V : exists v, 0 < v /\ y = power v g + c /\ (g <> 0 \/ v = 1)).
        { destruct (Req_dec g 0) as [->|NG].
          - exists 1. rewrite power_1l. split; [lra|]. split; [|now right]. destruct H as [H|H]; [now destruct H|exact H].
          - exists (power (y - c) (1 / g)). split; [apply power_gt0; lra|]. rewrite power_undo' by lra. split; [ring|now left]. }
        destruct V as (v & V & -> & Q). exists ((v - b) / a). rewrite val6, BASE. split; [right; split; [exact UA|right; tauto]|]. destruct (Rlt_dec v 0); [lra|]. now rewrite pow_fin by exact V.
Qed.

(** ** Type 7 *)
Lemma redo7 g a b c d y : tol <= g -> tol <= a -> tol <= b ->
  (undoes (-7) [g; a; b; c; d] y <-> c <= Rpower 10 ((y - d) / a) \/ g = 1).
Proof.
  intros G A B. pose proof tol_pos as T. pose proof ln10_pos as T10.
  assert (TEN : forall q, 0 < q -> Rpower 10 ((a * log_10 q + d - d) / a) = q).
  { intros q Q. replace ((a * log_10 q + d - d) / a) with (log_10 q) by (field; lra). unfold Rpower, log_10. replace (ln q / ln 10 * ln 10) with (ln q) by (field; lra).
    now apply exp_ln. }
  assert (LOG : a * log_10 (Rpower 10 ((y - d) / a)) + d = y).
  { unfold log_10, Rpower. rewrite ln_exp. field. lra. }
  apply (image_to 7 _ _ _ _ (fun x => undo7 g a b c d x G A B)).
  - intros x [(X & P)|(G1 & _ & _)] F; [left|now right]. rewrite type7_formula in F by lra. unfold icc7 in F. destruct (Rle_dec (b * power x g + c) 0); [lra|]. apply fin_of in F.
    rewrite <- F, TEN by exact P. assert (0 <= b * power x g) by (apply Rmult_le_pos; [lra|apply power_ge0]). lra.
  - intros H. set (q := Rpower 10 ((y - d) / a)) in *. assert (Q : 0 < q) by apply exp_pos. destruct (Rle_dec c q) as [L|L].
    + assert (V : 0 <= (q - c) / b) by (apply Rmult_le_reg_l with b; [lra|]; replace (b * ((q - c) / b)) with (q - c) by (field; lra); lra).
      exists (power ((q - c) / b) (1 / g)). assert (E : b * power (power ((q - c) / b) (1 / g)) g + c = q) by (rewrite power_undo' by lra; field; lra).
      split; [left; split; [apply power_ge0|lra]|]. rewrite type7_formula by (lra || apply power_ge0). unfold icc7. rewrite E. destruct (Rle_dec q 0); [lra|]. now rewrite LOG.
    + assert (G1 : g = 1) by (destruct H; [lra|assumption]). exists ((q - c) / b). assert (E : b * ((q - c) / b) = q - c) by (field; lra).
      assert (N : (q - c) / b < 0) by (apply Rmult_lt_reg_l with b; lra). split; [right; lra|].
      subst g. change 1 with (IZR 1). rewrite type7_off0 by (left; lra). replace (powerRZ ((q - c) / b) 1) with ((q - c) / b) by (change ((q - c) / b = ((q - c) / b) ^ 1); ring).
      rewrite E. replace (q - c + c) with q by ring. destruct (Rlt_dec 0 q); [now rewrite LOG|lra].
Qed.
Lemma redo7_tiny g a b c d y : g < tol \/ a < tol \/ b < tol ->
  (undoes (-7) [g; a; b; c; d] y <->
   (0 < g /\ ((0 < c /\ y = a * log_10 c + d) \/ (c <= 0 /\ y = d))) \/
   (g = 0 /\ ((0 < b + c /\ y = a * log_10 (b + c) + d) \/ (b + c <= 0 /\ y = d))) \/
   (g < 0 /\ b < 0 /\ y = d)).
Proof.
  intros S. apply (image_to 7 _ _ _ _ (fun x => undo7_tiny g a b c d x S)).
  - intros x (-> & H) F. destruct (Rtotal_order g 0) as [G|[->|G]].
    + right. right. destruct H as [H|H]; [lra|]. split; [exact G|]. split; [exact H|]. revert F. ev. rewrite pow0_neg by exact G. cbn [ext_mul ext_sgn]. rewrite Reqb_f by lra.
      rewrite Reqb_f by lra. unfold inf_of. rewrite Rltb_t by lra. cbn [ext_add ext_ge ext_lt negb]. intros F. apply fin_of in F. now symmetry.
    + right. left. split; [reflexivity|]. rewrite (type7_off0 a b c d 0 0) in F by (right; lia). replace (b * powerRZ 0 0 + c) with (b + c) in F by (cbn [powerRZ]; ring).
      apply fin_of in F. destruct (Rlt_dec 0 (b + c)); [left|right]; (split; [lra|now symmetry]).
    + left. split; [exact G|]. rewrite type7_formula in F by lra. unfold icc7 in F. rewrite power_0, Rmult_0_r, Rplus_0_l in F. apply fin_of in F.
      destruct (Rle_dec c 0); [right|left]; (split; [lra|now symmetry]).
  - intros [(G & H)|[(-> & H)|(G & B & ->)]]; exists 0.
    + split; [split; [reflexivity|left; lra]|]. rewrite type7_formula by lra. unfold icc7. rewrite power_0, Rmult_0_r, Rplus_0_l. destruct (Rle_dec c 0), H as [(H & ->)|(H & ->)]; (lra || reflexivity).
    + split; [split; [reflexivity|left; lra]|]. rewrite (type7_off0 a b c d 0 0) by (right; lia). replace (b * powerRZ 0 0 + c) with (b + c) by (cbn [powerRZ]; ring).
      destruct (Rlt_dec 0 (b + c)), H as [(H & ->)|(H & ->)]; (lra || reflexivity).
    + split; [split; [reflexivity|now right]|]. ev. rewrite pow0_neg by exact G. cbn [ext_mul ext_sgn]. rewrite Reqb_f by lra. rewrite Reqb_f by lra. unfold inf_of. now rewrite Rltb_t by lra.
Qed.

(** ** Type 8 *)
Lemma val8 a b c d e x v : ext_pow (Fin b) (Fin (c * x + d)) = Fin v -> eval_real 8 [a; b; c; d; e] x = Some (Fin (a * v + e)).
Proof. intros P. ev. now rewrite P. Qed.
Lemma zero8 a b c d e y : eval_real 8 [a; b; c; d; e] 0 = Some (Fin y) <-> at_zero8 a b d e y.
Proof.
  unfold at_zero8. assert (Z : c * 0 + d = d) by ring. split.
  - intros F. assert (N : exists y, eval_real 8 [a; b; c; d; e] 0 = Some (Fin y)) by (now exists y). apply type8_number in N. rewrite Z in N. destruct N as [B|[(-> & D)|(B & n & W)]].
    + left. split; [exact B|]. rewrite (val8 a b c d e 0 (power b d)) in F by (rewrite Z; now apply pow_fin). apply fin_of in F. now symmetry.
    + right. left. split; [reflexivity|]. destruct (Req_dec d 0) as [->|ND].
      * right. split; [reflexivity|]. rewrite (val8 a 0 c 0 e 0 1) in F by (rewrite Z; apply pow_e0). apply fin_of in F. lra.
      * left. split; [lra|]. rewrite (val8 a 0 c d e 0 0) in F by (rewrite Z, pow_fin0 by lra; now rewrite power_0). apply fin_of in F. lra.
    + right. right. split; [exact B|]. exists n. split; [exact W|]. rewrite (val8 a b c d e 0 (powerRZ b n)) in F by (rewrite Z, W; apply pow_int; left; lra). apply fin_of in F. now symmetry.
  - intros [(B & ->)|[(-> & [(D & ->)|(-> & ->)])|(B & n & W & ->)]].
    + apply val8. rewrite Z. now apply pow_fin.
    + rewrite (val8 a 0 c d e 0 0) by (rewrite Z, pow_fin0 by lra; now rewrite power_0). do 2 f_equal. ring.
    + rewrite (val8 a 0 c 0 e 0 1) by (rewrite Z; apply pow_e0). do 2 f_equal. ring.
    + apply val8. rewrite Z, W. apply pow_int. left. lra.
Qed.
Lemma redo8 a b c d e y :
  undoes (-8) [a; b; c; d; e] y <->
  ((y < e \/ ~ usable a c) /\ at_zero8 a b d e y) \/
  (e < y /\ usable a c /\ 0 < a /\ ((0 < b /\ b <> 1) \/ (b = 0 /\ y = a + e))).
Proof.
  pose proof tol_pos as T. pose proof ln10_pos as T10.
  assert (SPLIT : forall x, undoes 8 [a; b; c; d; e] x -> eval_real 8 [a; b; c; d; e] x = Some (Fin y) -> eval_real (-8) [a; b; c; d; e] y = Some (Fin x)).
  { intros x U F. apply (at_value 8 _ x y F) in U. exact U. }
  split.
  - change (-8)%Z with (- (8))%Z. rewrite image. intros (x & U & F). pose proof (SPLIT x U F) as R. destruct (Rlt_dec y e) as [L|L].
    { left. split; [now left|]. revert R. ev. rewrite Rltb_t by lra. intros R. apply fin_of in R. subst x. now apply (zero8 a b c d e y). }
    destruct (usable_dec a c) as [Us|Us].
    2:{ left. split; [right; now apply tiny_usable|]. apply undo8 in U. destruct U as [(_ & -> & _)|(U & _)]; [now apply (zero8 a b c d e y)|now destruct (tiny_usable a c Us)]. }
    destruct (usable_nz a c Us) as (NA & NC). assert (Us' := Us). destruct Us' as (UA & UC).
    right. revert R. ev. rewrite Rltb_f by lra. rewrite !small_abs by assumption. cbn [orb]. rewrite (div_fin _ a) by exact NA. intros R.
    assert (Q : 0 < (y - e) / a \/ (y - e) / a <= 0) by lra. destruct Q as [Q|Q].
    2:{ exfalso. apply some_eq in R. assert (LQ : ext_log10 (Fin ((y - e) / a)) = NInf \/ ext_log10 (Fin ((y - e) / a)) = NaN).
        { cbn [ext_log10]. rewrite Rltb_f by lra. unfold Reqb. destruct (Req_EM_T ((y - e) / a) 0); tauto. }
        revert R. destruct LQ as [-> | ->]; [|discriminate]. destruct (ext_log10 (Fin b)) as [l| | |]; cbn [ext_div]; try discriminate.
        destruct (Rltb l 0); cbn [ext_neg ext_sub ext_add ext_div]; destruct (Rltb c 0); discriminate. }
    assert (A : 0 < a).
    { destruct (Rlt_dec 0 a) as [A|A]; [exact A|exfalso]. assert (0 < - a * ((y - e) / a)) by (apply Rmult_lt_0_compat; lra). replace (- a * ((y - e) / a)) with (- (y - e)) in H by (now field). lra. }
    assert (Y : e < y) by (assert (0 < a * ((y - e) / a)) by (apply Rmult_lt_0_compat; lra); replace (a * ((y - e) / a)) with (y - e) in H by (now field); lra).
    split; [exact Y|]. split; [exact Us|]. split; [exact A|]. apply undo8 in U. destruct U as [(U & _)|(_ & [(B & [(_ & B1)|H])|[(-> & Z & _)|(B & _)]])]; [contradiction|left; tauto|lra| |].
    + right. split; [reflexivity|]. rewrite (val8 a 0 c d e x 1) in F by (rewrite Z; apply pow_e0). apply fin_of in F. lra.
    + exfalso. assert (LB : ext_log10 (Fin b) = NaN) by (cbn [ext_log10]; rewrite Rltb_f by lra; now rewrite Reqb_f by lra). apply some_eq in R. rewrite LB in R. destruct (ext_log10 (Fin ((y - e) / a))); discriminate.
  - intros [(H & Z)|(Y & U & A & H)].
    + exists 0. split; [|exact (proj2 (zero8 a b c d e y) Z)]. ev. destruct (Rlt_dec y e) as [L|L]; [now rewrite Rltb_t by lra|]. rewrite Rltb_f by lra. destruct H as [H|H]; [lra|].
      destruct (usable_dec a c) as [U|U]; [contradiction|]. destruct U as [U|U]; rewrite (Rltb_t _ _ U); now rewrite ?orb_true_r.
    + destruct (usable_nz a c U) as (NA & NC). assert (Q : 0 < (y - e) / a) by (apply Rdiv_lt_0_compat; lra). change (-8)%Z with (- (8))%Z. apply image. destruct H as [(B & B1)|(-> & ->)].
      * assert (LB : ln b <> 0) by (intros H; apply B1; rewrite <- (exp_ln b B), H; apply exp_0). exists ((ln ((y - e) / a) / ln b - d) / c).
        assert (E : c * ((ln ((y - e) / a) / ln b - d) / c) + d = ln ((y - e) / a) / ln b) by (field; lra).
        assert (P : power b (ln ((y - e) / a) / ln b) = (y - e) / a) by (rewrite power_pos by exact B; unfold Rpower; replace (ln ((y - e) / a) / ln b * ln b) with (ln ((y - e) / a)) by (now field); now apply exp_ln).
        split; [apply undo8; right; split; [exact U|]; left; split; [exact B|]; left; tauto|].
        rewrite (val8 a b c d e _ ((y - e) / a)) by (rewrite E, pow_fin by exact B; now rewrite P). do 2 f_equal. now field.
      * exists (- d / c). assert (E : c * (- d / c) + d = 0) by (now field). split; [apply undo8; right; split; [exact U|]; right; left; split; [reflexivity|]; split; [exact E|now left]|].
        rewrite (val8 a 0 c d e _ 1) by (rewrite E; apply pow_e0). do 2 f_equal. ring.
Qed.

(** ** Type 108 *)
Lemma redo108 g y :
  undoes (-108) [g] y <->
  (Rabs g < tol /\ y = 0) \/
  (tol <= Rabs g /\ ((0 < g /\ 0 <= y <= 1) \/ (g < 0 /\ (1 < y \/ y = 0)) \/ g = 1 \/ (g = - (1) /\ y <> 1))).
Proof.
  pose proof tol_pos as T. destruct (Rlt_dec (Rabs g) tol) as [S|S].
  { assert (F : forall x, eval_real 108 [g] x = Some (Fin 0)) by (intros x; ev; now rewrite Rltb_t by exact S).
    apply (image_to 108 _ _ _ _ (undo108 g)).
    - intros x _ E. rewrite F in E. apply fin_of in E. left. split; [exact S|now symmetry].
    - intros [(_ & ->)|H]; [|lra]. destruct (Rlt_dec g 0) as [N|N]; [exists 1|exists 0]; (split; [left; split; [exact S|lra]|apply F]). }
  assert (G : tol <= Rabs g) by lra. pose proof (abs_nz g G) as NG.
  assert (EV : forall x, eval_real 108 [g] x = Some (ext_pow (ext_sub (Fin 1) (ext_pow (Fin (1 - x)) (Fin (1 / g)))) (Fin (1 / g)))).
  { intros x. ev. rewrite small_abs by exact G. now rewrite !(div_fin 1) by exact NG. }
  assert (AT1 : g < 0 -> eval_real 108 [g] 1 = Some (Fin 0)).
  { intros N. rewrite EV. replace (1 - 1) with 0 by ring. pose proof (neg_inv g N). rewrite pow0_neg by assumption. change (ext_sub (Fin 1) PInf) with NInf. now rewrite ninf_neg by assumption. }
  assert (SMALL : forall v h, 1 < v -> h < 0 -> 0 < power v h < 1).
  { intros v h V H. split; [apply power_gt0; lra|]. rewrite power_pos by lra. unfold Rpower. apply Rlt_le_trans with (exp 0); [apply exp_increasing|rewrite exp_0; lra].
    assert (0 < ln v) by (rewrite <- ln_1; apply ln_increasing; lra). assert (0 < - h * ln v) by (apply Rmult_lt_0_compat; lra). lra. }
  assert (LARGE : forall v h, 0 < v < 1 -> h < 0 -> 1 < power v h).
  { intros v h V H. rewrite power_pos by lra. unfold Rpower. apply Rle_lt_trans with (exp 0); [rewrite exp_0; lra|]. apply exp_increasing.
    assert (ln v < 0) by (rewrite <- ln_1; apply ln_increasing; lra). assert (0 < - h * - ln v) by (apply Rmult_lt_0_compat; lra). lra. }
  apply (image_to 108 _ _ _ _ (undo108 g)).
  - intros x [(H & _)|(_ & H)] F; [lra|]. right. split; [exact G|]. destruct H as [(P & X)|[(N & [X| ->])|[G1|(G1 & X)]]].
    + left. split; [exact P|]. destruct (type108_range g x ltac:(rewrite Rabs_right in G; lra) X) as (y' & E & Y). rewrite E in F. apply fin_of in F. now subst y'.
    + right. left. split; [exact N|]. left. pose proof (neg_inv g N) as NI. rewrite EV in F. rewrite pow_fin in F by lra. rewrite sub_fin in F.
      destruct (SMALL (1 - x) (1 / g) ltac:(lra) NI) as (V0 & V1). rewrite pow_fin in F by lra. apply fin_of in F. subst y. apply LARGE; [lra|exact NI].
    + right. left. split; [exact N|]. right. rewrite AT1 in F by exact N. apply fin_of in F. now symmetry.
    + tauto.
    + right. right. right. split; [exact G1|]. intros ->. rewrite EV in F. rewrite G1 in F. replace (1 / - (1)) with (- (1)) in F by (field; lra). destruct (Req_dec x 1) as [->|X1].
      * replace (1 - 1) with 0 in F by ring. rewrite pow0_neg in F by lra. change (ext_sub (Fin 1) PInf) with NInf in F. rewrite ninf_neg in F by lra. apply fin_of in F. lra.
      * assert (D : 1 - x <> 0) by lra. rewrite pow_m1, sub_fin in F by exact D. assert (W : 1 - / (1 - x) <> 0).
        { intros W. apply X. assert ((1 - x) * (1 - / (1 - x)) = - x) by (now field). rewrite W in H. lra. }
        rewrite pow_m1 in F by exact W. apply fin_of in F. assert (E : 1 - / (1 - x) = 1) by (rewrite <- (Rinv_inv (1 - / (1 - x))), F; apply Rinv_1). pose proof (Rinv_neq_0_compat _ D). lra.
  - intros [(H & _)|(_ & H)]; [lra|]. destruct H as [(P & Y)|[(N & [Y| ->])|[G1|(G1 & Y)]]].
    + destruct (type108_right g y ltac:(rewrite Rabs_right in G; lra) Y) as (x & _ & X & _ & F). exists x. split; [right; split; [exact G|left; tauto]|exact F].
    + pose proof (neg_inv g N) as NI. destruct (SMALL y g Y N) as (W0 & W1). assert (V : 1 < power (1 - power y g) g) by (apply LARGE; [lra|exact N]).
      exists (1 - power (1 - power y g) g). split; [right; split; [exact G|]; right; left; split; [exact N|left; lra]|]. rewrite EV.
      replace (1 - (1 - power (1 - power y g) g)) with (power (1 - power y g) g) by ring. rewrite pow_fin by lra. rewrite power_undo, sub_fin by lra.
      replace (1 - (1 - power y g)) with (power y g) by ring. rewrite pow_fin by lra. now rewrite power_undo by lra.
    + exists 1. split; [right; split; [exact G|]; right; left; split; [exact N|now right]|now apply AT1].
    + exists y. split; [right; split; [exact G|tauto]|]. rewrite EV, G1. replace (1 / 1) with 1 by lra. rewrite pow_one, sub_fin, pow_one. do 2 f_equal. ring.
    + assert (D : 1 - y <> 0) by lra. exists (/ (1 - y)). pose proof (Rinv_neq_0_compat _ D) as X. split; [right; split; [exact G|]; right; right; right; tauto|].
      rewrite EV, G1. replace (1 / - (1)) with (- (1)) by (field; lra). destruct (Req_dec y 0) as [->|Y0].
      * replace (1 - / (1 - 0)) with 0 by (field). rewrite pow0_neg by lra. change (ext_sub (Fin 1) PInf) with NInf. now rewrite ninf_neg by lra.
      * assert (W : 1 - / (1 - y) = - y / (1 - y)) by (now field). assert (WN : - y / (1 - y) <> 0) by (unfold Rdiv; apply Rmult_integral_contrapositive; split; [lra|exact X]).
        rewrite W, pow_m1, sub_fin by exact WN. replace (1 - / (- y / (1 - y))) with (/ y) by (field; lra). rewrite pow_m1 by (now apply Rinv_neq_0_compat). now rewrite Rinv_inv.
Qed.

(** ** Type 109 *)
Lemma sigmoid_half k : sigmoid k (/ 2) = / 2.
Proof. unfold sigmoid. replace (2 * / 2 - 1) with 0 by lra. rewrite logistic_0. ring. Qed.
Lemma redo109 k y : undoes (-109) [k] y <-> k <> 0 /\ y = / 2.
Proof.
  apply (image_to 109 _ _ _ _ (undo109 k)).
  - intros x (K & ->) F. split; [exact K|]. rewrite type109_val, sigmoid_half in F by exact K. apply fin_of in F. now symmetry.
  - intros (K & ->). exists (/ 2). split; [tauto|]. rewrite type109_val by exact K. now rewrite sigmoid_half.
Qed.

(** ** Types 4 and 5, for all parameters *)
Lemma is_value4 g a b c d x y : eval_real 4 [g; a; b; c; d] x = Some (Fin y) <-> value4 g a b c d x y.
Proof.
  unfold value4. ev. destruct (Rlt_dec x d) as [L|L].
  - rewrite (Rltb_t x) by exact L. cbn [negb]. rewrite fin_iff. split; [intros <-; left; split; [exact L|ring]|intros [(_ & ->)|H]; [ring|lra]].
  - rewrite (Rltb_f x) by lra. cbn [negb]. destruct (Rlt_dec 0 (a * x + b)) as [P|P].
    + rewrite (Rltb_t 0) by exact P. rewrite pow_fin, fin_iff by exact P. split; [intros <-; right; split; [lra|left; tauto]|intros [H|(_ & [(_ & ->)|H])]; [lra|reflexivity|lra]].
    + rewrite (Rltb_f 0) by lra. rewrite fin_iff. split; [intros <-; right; split; [lra|right; lra]|intros [H|(_ & [H|H])]; lra].
Qed.
Lemma is_value5 g a b c d e f x y : eval_real 5 [g; a; b; c; d; e; f] x = Some (Fin y) <-> value5 g a b c d e f x y.
Proof.
  unfold value5. ev. destruct (Rlt_dec x d) as [L|L].
  - rewrite (Rltb_t x) by exact L. cbn [negb]. rewrite fin_iff. split; [intros <-; left; split; [exact L|ring]|intros [(_ & ->)|H]; [ring|lra]].
  - rewrite (Rltb_f x) by lra. cbn [negb]. destruct (Rlt_dec 0 (a * x + b)) as [P|P].
    + rewrite (Rltb_t 0) by exact P. rewrite pow_fin, add_fin, fin_iff by exact P. split; [intros <-; right; split; [lra|left; tauto]|intros [H|(_ & [(_ & ->)|H])]; [lra|reflexivity|lra]].
    + rewrite (Rltb_f 0) by lra. rewrite fin_iff. split; [intros <-; right; split; [lra|right; lra]|intros [H|(_ & [H|H])]; lra].
Qed.
(** The root branch of the reverses, and what the curve makes of its answer. *)
Lemma root_point g a b v x : usable g a -> 0 <= v -> (on_power g a b x v <-> (v = 0 -> 0 < g) /\ x = (power v (1 / g) - b) / a).
Proof.
  intros U V. destruct (usable_nz g a U) as (NG & NA). unfold on_power. split.
  - intros [(P & ->)|(Z & G & ->)].
    + split; [intros E; pose proof (power_gt0 _ g P); lra|]. rewrite power_undo by lra. now field.
    + split; [tauto|]. rewrite power_0. symmetry. apply inv_of_line; [exact NA|lra].
  - intros (G & ->). assert (E : a * ((power v (1 / g) - b) / a) + b = power v (1 / g)) by (now field). rewrite E. destruct V as [V| <-].
    + left. split; [now apply power_gt0|]. now rewrite power_undo' by lra.
    + right. rewrite power_0. split; [reflexivity|]. split; [now apply G|reflexivity].
Qed.
Lemma redo5_all g a b c d e f y :
  undoes (-5) [g; a; b; c; d; e; f] y <->
  (y < c * d + f /\ ((Rabs c < tol /\ value5 g a b c d e f 0 y) \/ (tol <= Rabs c /\ (0 < c \/ value5 g a b c d e f ((y - f) / c) y)))) \/
  (c * d + f <= y /\ (y < e \/ ~ usable g a) /\ value5 g a b c d e f 0 y) \/
  (c * d + f <= y /\ e <= y /\ usable g a /\ (y = e -> 0 < g) /\
    (d <= (power (y - e) (1 / g) - b) / a \/ y = c * ((power (y - e) (1 / g) - b) / a) + f)).
Proof.
  pose proof tol_pos as T.
  assert (GO : forall x, eval_real (-5) [g; a; b; c; d; e; f] y = Some (Fin x) -> (undoes (-5) [g; a; b; c; d; e; f] y <-> value5 g a b c d e f x y)).
  { intros x E. rewrite (at_value _ _ _ _ E). apply is_value5. }
  destruct (Rlt_dec y (c * d + f)) as [L|L].
  - destruct (Rlt_dec (Rabs c) tol) as [S|S].
    + rewrite (GO 0) by (ev; rewrite (Rltb_t y) by exact L; cbn [negb]; now rewrite (Rltb_t (Rabs c)) by exact S).
      split; [intros H; left; tauto|intros [(_ & [(_ & H)|H])|[H|H]]; (exact H || lra)].
    + assert (NC : c <> 0) by (apply abs_nz; lra).
      rewrite (GO ((y - f) / c)) by (ev; rewrite (Rltb_t y) by exact L; cbn [negb]; rewrite small_abs by lra; now rewrite div_fin by exact NC).
      split; [intros H; left; split; [exact L|right; split; [lra|now right]]|]. intros [(_ & [H|(_ & [H|H])])|[H|H]]; try lra; [|exact H].
      left. split; [|now field]. apply Rmult_lt_reg_l with c; [exact H|]. replace (c * ((y - f) / c)) with (y - f) by (now field). lra.
  - destruct (Rlt_dec y e) as [E|E].
    { rewrite (GO 0) by (ev; rewrite (Rltb_f y) by lra; cbn [negb]; now rewrite Rltb_t by lra).
      split; [intros H; right; left; split; [lra|tauto]|intros [H|[(_ & _ & H)|H]]; (exact H || lra)]. }
    destruct (usable_dec g a) as [U|U].
    2:{ assert (NU := tiny_usable g a U).
        rewrite (GO 0) by (ev; rewrite (Rltb_f y) by lra; cbn [negb]; rewrite Rltb_f by lra; destruct U as [U|U]; rewrite (Rltb_t _ _ U); now rewrite ?orb_true_r).
        split; [intros H; right; left; split; [lra|tauto]|intros [H|[(_ & _ & H)|(_ & _ & H & _)]]; (exact H || contradiction || lra)]. }
    destruct (usable_nz g a U) as (NG & NA). set (x := (power (y - e) (1 / g) - b) / a).
    assert (X : a * x + b = power (y - e) (1 / g)) by (unfold x; now field).
    assert (BACK : forall z, eval_real (-5) [g; a; b; c; d; e; f] y = Some (Fin z) <-> (y = e -> 0 < g) /\ z = x).
    { intros z. assert (R := root_back g a b z (y - e) U ltac:(lra)). rewrite (root_point g a b (y - e) z U ltac:(lra)) in R. fold x in R.
      assert (Q : (y - e = 0 -> 0 < g) <-> (y = e -> 0 < g)) by (split; intros H K; apply H; lra). rewrite Q in R. rewrite <- R. clear R Q. destruct U as (UG & UA).
      ev. rewrite (Rltb_f y) by lra. cbn [negb]. rewrite Rltb_f by lra. rewrite !small_abs by assumption. cbn [orb]. now rewrite some_iff. }
    assert (VAL : value5 g a b c d e f x y <-> d <= x \/ y = c * x + f).
    { unfold value5. rewrite X. destruct (Rlt_dec x d) as [D|D]; [split; [intros [(_ & H)|H]; [now right|lra]|intros [H|H]; [lra|left; tauto]]|].
      split; [intros _; left; lra|]. intros _. right. split; [lra|]. destruct (Rlt_dec e y) as [P|P].
      - left. split; [apply power_gt0; lra|]. rewrite power_undo' by lra. ring.
      - right. replace (y - e) with 0 by lra. rewrite power_0. lra. }
    split.
    + intros (z & B & F). change (- (-5))%Z with 5%Z in F. apply BACK in B. destruct B as (G & ->). apply is_value5, VAL in F. right. right. split; [lra|]. split; [lra|]. tauto.
    + intros [H|[(_ & [H|H] & _)|(_ & _ & _ & G & H)]]; [lra|lra|contradiction|]. exists x. split; [apply BACK; tauto|]. change (- (-5))%Z with 5%Z. now apply is_value5, VAL.
Qed.
Lemma past_dec g a b d y : past_break g a b d y \/ ~ past_break g a b d y.
Proof.
  unfold past_break. destruct (Rlt_dec 0 (a * d + b)), (Rlt_dec (a * d + b) 0), (Rle_dec (power (a * d + b) g) y), (Rle_dec 0 y), (Rle_dec 1 y), (Rlt_dec 0 g), (Req_dec g 0); tauto || lra.
Qed.
Lemma redo4_all g a b c d y :
  undoes (-4) [g; a; b; c; d] y <->
  (~ past_break g a b d y /\ ((Rabs c < tol /\ value4 g a b c d 0 y) \/ (tol <= Rabs c /\ value4 g a b c d (y / c) y))) \/
  (past_break g a b d y /\ ~ usable g a /\ value4 g a b c d 0 y) \/
  (past_break g a b d y /\ usable g a /\ (y = 0 -> 0 < g) /\
    (d <= (power y (1 / g) - b) / a \/ y = c * ((power y (1 / g) - b) / a))).
Proof.
  rewrite (image_to 4 _ _ _ (exists x, ((past_break g a b d y /\ ((~ usable g a /\ x = 0) \/ (usable g a /\ on_power g a b x y))) \/
     (~ past_break g a b d y /\ ((Rabs c < tol /\ x = 0) \/ (tol <= Rabs c /\ y = c * x)))) /\ value4 g a b c d x y) (undo4_all g a b c d)).
  - pose proof tol_pos as T. split.
    + intros (x & [(P & [(NU & ->)|(U & O)])|(NP & [(S & ->)|(S & E)])] & V).
      * right. left. tauto.
      * right. right. split; [exact P|]. split; [exact U|].
        assert (Y : 0 <= y) by (destruct O as [(Q & ->)|(_ & _ & ->)]; [apply power_ge0|lra]).
        apply (root_point g a b y x U Y) in O. destruct O as (G & X). split; [exact G|]. rewrite <- X. destruct V as [(_ & V)|(V & _)]; [now right|now left].
      * left. split; [exact NP|]. left. tauto.
      * left. split; [exact NP|]. right. split; [exact S|]. assert (c <> 0) by (now apply abs_nz). replace (y / c) with x; [exact V|]. rewrite E. now field.
    + intros [(NP & [(S & V)|(S & V)])|[(P & NU & V)|(P & U & G & V)]].
      * exists 0. tauto.
      * exists (y / c). split; [right; split; [exact NP|right; split; [exact S|]]|exact V]. assert (c <> 0) by (now apply abs_nz). now field.
      * exists 0. tauto.
      * assert (Y : 0 <= y) by (destruct P as [(Q & P)|[P|P]]; [pose proof (power_gt0 _ g Q); lra|lra|lra]). destruct (usable_nz g a U) as (NG & NA).
        set (x := (power y (1 / g) - b) / a) in *. assert (X : a * x + b = power y (1 / g)) by (unfold x; now field).
        exists x. split; [left; split; [exact P|right; split; [exact U|apply root_point; tauto]]|]. unfold value4. rewrite X. destruct (Rlt_dec x d) as [D|D]; [left; lra|].
        right. split; [lra|]. destruct Y as [Y| <-]; [left; split; [now apply power_gt0|now rewrite power_undo' by lra]|right; rewrite power_0; lra].
  - intros x (y' & Y & H) F. apply is_value4 in F. exists x. split; [|exact F]. assert (y' = y); [|subst; exact H]. unfold value4 in F. lra.
  - intros (x & H & V). exists x. split; [|now apply is_value4]. exists y. split; [|exact H]. unfold value4 in V. lra.
Qed.
