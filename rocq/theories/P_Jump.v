(** Where the curves are continuous in exact arithmetic. *)
From Coq Require Import Reals Lra.
From Verif Require Import M_Base M_Curve M_CurveReal S_Curve S_Curve2 S_Jump P_Curve P_Curve2 P_Formula.
Open Scope R_scope.

(** ** Continuity of the building blocks *)
Definition cont := continuity_pt.

Lemma cont_eps F x : cont F x <->
  forall eps, 0 < eps -> exists delta, 0 < delta /\ forall x', x - delta < x' < x + delta -> F x - eps < F x' < F x + eps.
Proof.
  unfold cont, continuity_pt, continue_in, limit1_in, limit_in. cbn. unfold R_dist. split.
  - intros H eps E. destruct (H eps E) as (dl & D & K). exists dl. split; [exact D|]. intros x' X.
    destruct (Req_dec x x') as [->|N]; [lra|].
    assert (A : Rabs (F x' - F x) < eps).
    { apply K. split; [split; [exact I|exact N]|]. apply Rabs_def1; lra. }
    apply Rabs_def2 in A. lra.
  - intros H eps E. destruct (H eps E) as (dl & D & K). exists dl. split; [exact D|]. intros x' (_ & X).
    apply Rabs_def2 in X. apply Rabs_def1; specialize (K x'); lra.
Qed.

Lemma cont_near F G x dl : 0 < dl -> (forall x', x - dl < x' < x + dl -> F x' = G x') -> cont F x -> cont G x.
Proof.
  intros D H C. rewrite cont_eps in *. intros eps E. destruct (C eps E) as (d1 & D1 & K).
  exists (Rmin dl d1). split; [apply Rmin_pos; lra|]. intros x' X.
  pose proof (Rmin_l dl d1). pose proof (Rmin_r dl d1). rewrite <- !H by lra. apply K. lra.
Qed.
Lemma c_const k x : cont (fun _ => k) x. Proof. apply continuity_pt_const. intros u v. reflexivity. Qed.
Lemma c_id x : cont (fun u => u) x. Proof. apply derivable_continuous_pt, derivable_pt_id. Qed.
Lemma c_plus f g x : cont f x -> cont g x -> cont (fun u => f u + g u) x. Proof. exact (continuity_pt_plus f g x). Qed.
Lemma c_minus f g x : cont f x -> cont g x -> cont (fun u => f u - g u) x. Proof. exact (continuity_pt_minus f g x). Qed.
Lemma c_mult f g x : cont f x -> cont g x -> cont (fun u => f u * g u) x. Proof. exact (continuity_pt_mult f g x). Qed.
Lemma c_opp f x : cont f x -> cont (fun u => - f u) x. Proof. exact (continuity_pt_opp f x). Qed.
Lemma c_inv f x : cont f x -> f x <> 0 -> cont (fun u => / f u) x. Proof. exact (continuity_pt_inv f x). Qed.
Lemma c_div f g x : cont f x -> cont g x -> g x <> 0 -> cont (fun u => f u / g u) x.
Proof. exact (continuity_pt_div f g x). Qed.
Lemma c_comp f g x : cont f x -> cont g (f x) -> cont (fun u => g (f u)) x. Proof. exact (continuity_pt_comp f g x). Qed.
Lemma c_exp x : cont exp x. Proof. apply derivable_continuous_pt, derivable_pt_exp. Qed.
Lemma c_ln x : 0 < x -> cont ln x.
Proof. intros H. apply derivable_continuous_pt. exists (/ x). now apply derivable_pt_lim_ln. Qed.
Lemma c_Rpower x g : 0 < x -> cont (fun u => Rpower u g) x.
Proof.
  intros H. unfold Rpower. apply (c_comp (fun u => g * ln u) exp); [|apply c_exp].
  apply c_mult; [apply c_const|now apply c_ln].
Qed.
Lemma c_Rpower_exponent b x : cont (fun u => Rpower b u) x.
Proof.
  unfold Rpower. apply (c_comp (fun u => u * ln b) exp); [|apply c_exp]. apply c_mult; [apply c_id|apply c_const].
Qed.
Lemma c_line a b x : cont (fun u => a * u + b) x.
Proof. apply c_plus; [apply c_mult; [apply c_const|apply c_id]|apply c_const]. Qed.

Lemma above_pos u g : 0 < u -> above u g = Rpower u g.
Proof. intros H. unfold above. destruct (Rlt_dec 0 u); lra. Qed.
Lemma above_neg u g : u <= 0 -> above u g = 0.
Proof. intros H. unfold above. destruct (Rlt_dec 0 u); lra. Qed.
Lemma above_power u g : 0 <= u -> above u g = power u g.
Proof.
  intros H. unfold above, power. destruct (Rlt_dec 0 u) as [L|L], (Req_EM_T u 0) as [E|E]; try reflexivity; lra.
Qed.
Lemma above_max u g : above u g = power (Rmax 0 u) g.
Proof.
  destruct (Rle_dec 0 u) as [L|L].
  - rewrite Rmax_right by exact L. now apply above_power.
  - rewrite Rmax_left by lra. rewrite power_0. apply above_neg. lra.
Qed.
Lemma above_ge0 u g : 0 <= above u g.
Proof. rewrite above_max. apply power_ge0. Qed.

Lemma c_above g x : 0 < g -> cont (fun u => above u g) x.
Proof.
  intros G. destruct (Rtotal_order x 0) as [L|[->|L]].
  - apply (cont_near (fun _ => 0) _ _ (- x)); [lra| |apply c_const]. intros x' X. rewrite above_neg; lra.
  - apply cont_eps. intros eps E. exists (Rpower eps (1 / g)). split; [apply Rpower_pos|]. intros x' X.
    rewrite (above_neg 0) by lra.
    destruct (Rlt_dec 0 x') as [P|P]; [|rewrite above_neg; lra].
    rewrite above_pos by exact P. pose proof (Rpower_pos x' g).
    assert (Rpower x' g < eps); [|lra].
    pose proof (power_lt x' (Rpower eps (1 / g)) g ltac:(lra) G) as K.
    rewrite power_pos in K by exact P. rewrite power_pos in K by apply Rpower_pos.
    rewrite Rpower_mult in K. replace (1 / g * g) with 1 in K by (field; lra). rewrite Rpower_1 in K by exact E. exact K.
  - apply (cont_near (fun u => Rpower u g) _ _ x); [lra| |now apply c_Rpower]. intros x' X. rewrite above_pos; lra.
Qed.

(** ** Gluing pieces *)
Lemma glue3 t ps x dl v G H : 0 < dl ->
  eval_real t ps x = Some (Fin v) ->
  (forall x', x < x' < x + dl -> eval_real t ps x' = Some (Fin (G x'))) ->
  (forall x', x - dl < x' < x -> eval_real t ps x' = Some (Fin (H x'))) ->
  cont G x -> cont H x -> (steady t ps x <-> G x = v /\ H x = v).
Proof.
  intros D V HG HH CG CH. rewrite cont_eps in CG, CH. split.
  - intros (y & Y & K). rewrite V in Y. injection Y as <-.
    assert (side : forall (S : R -> R) (sg : R), sg = 1 \/ sg = -1 ->
      (forall u, 0 < u < dl -> eval_real t ps (x + sg * u) = Some (Fin (S (x + sg * u)))) ->
      (forall eps, 0 < eps -> exists delta, 0 < delta /\ forall x', x - delta < x' < x + delta -> S x - eps < S x' < S x + eps) ->
      S x = v).
    { intros S sg SG HS CS. destruct (Req_dec (S x) v) as [E|N]; [exact E|exfalso].
      set (eps := Rabs (S x - v) / 2).
      assert (E : 0 < eps) by (unfold eps; pose proof (Rabs_pos_lt (S x - v) ltac:(lra)); lra).
      destruct (CS eps E) as (d1 & D1 & K1). destruct (K eps E) as (d2 & D2 & K2).
      set (u := Rmin dl (Rmin d1 d2) / 2).
      assert (U : 0 < Rmin dl (Rmin d1 d2)) by (repeat apply Rmin_pos; lra).
      assert (U1 : 0 < u /\ u < dl /\ u < d1 /\ u < d2).
      { unfold u. pose proof (Rmin_l dl (Rmin d1 d2)). pose proof (Rmin_r dl (Rmin d1 d2)).
        pose proof (Rmin_l d1 d2). pose proof (Rmin_r d1 d2). lra. }
      clearbody u. assert (X : x - u <= x + sg * u <= x + u) by (destruct SG; subst sg; lra).
      specialize (K1 (x + sg * u) ltac:(lra)). destruct (K2 (x + sg * u) ltac:(lra)) as (y' & Y' & B).
      rewrite HS in Y' by lra. injection Y' as <-.
      unfold eps in *. unfold Rabs in *. destruct (Rcase_abs (S x - v)); lra. }
    split.
    + apply (side G 1); [now left| |exact CG]. intros u U. apply HG. lra.
    + apply (side H (-1)); [now right| |exact CH]. intros u U. apply HH. lra.
  - intros (EG & EH). exists v. split; [exact V|]. intros eps E.
    destruct (CG eps E) as (d1 & D1 & K1). destruct (CH eps E) as (d2 & D2 & K2).
    exists (Rmin dl (Rmin d1 d2)). split; [repeat apply Rmin_pos; lra|]. intros x' X.
    pose proof (Rmin_l dl (Rmin d1 d2)). pose proof (Rmin_r dl (Rmin d1 d2)).
    pose proof (Rmin_l d1 d2). pose proof (Rmin_r d1 d2).
    destruct (Rtotal_order x' x) as [L|[->|L]].
    + exists (H x'). split; [apply HH; lra|]. rewrite <- EH. apply K2. lra.
    + exists v. split; [exact V|lra].
    + exists (G x'). split; [apply HG; lra|]. rewrite <- EG. apply K1. lra.
Qed.
Lemma glue t ps x dl G H : 0 < dl ->
  (forall x', x <= x' < x + dl -> eval_real t ps x' = Some (Fin (G x'))) ->
  (forall x', x - dl < x' < x -> eval_real t ps x' = Some (Fin (H x'))) ->
  cont G x -> cont H x -> (steady t ps x <-> G x = H x).
Proof.
  intros D HG HH CG CH. rewrite (glue3 t ps x dl (G x) G H); try assumption.
  - split; [intros (_ & <-); reflexivity|intros E; split; congruence].
  - apply HG. lra.
  - intros x' X. apply HG. lra.
Qed.
Lemma smooth t ps x dl G : 0 < dl ->
  (forall x', x - dl < x' < x + dl -> eval_real t ps x' = Some (Fin (G x'))) -> cont G x -> steady t ps x.
Proof. intros D H C. apply (glue t ps x dl G G D); try assumption; try (intros x' X; apply H; lra). reflexivity. Qed.
Lemma not_number t ps x : (forall y, eval_real t ps x <> Some (Fin y)) -> ~ steady t ps x.
Proof. intros H (y & Y & _). exact (H y Y). Qed.

(** ** Types 1 and -1 *)
Lemma type1_at0 g : g <= 0 -> eval_real 1 [g] 0 = Some (if Req_EM_T g 0 then Fin 1 else PInf).
Proof.
  intros G. ev. rewrite Rltb_f by lra. unfold ext_pow. destruct (Req_EM_T g 0) as [E|E].
  - now rewrite Reqb_t.
  - rewrite Reqb_f by exact E. rewrite Rltb_f by lra. rewrite Reqb_t by reflexivity. now rewrite Rltb_f by lra.
Qed.
Lemma type1_steady g x : steady 1 [g] x <-> (x = 0 -> 0 < g).
Proof.
  destruct (Rtotal_order x 0) as [L|[->|L]].
  - split; [lra|]. intros _. destruct (Rlt_dec (Rabs g - 1) tol) as [T|T].
    + apply (smooth _ _ _ (- x) (fun u => u)); [lra| |apply c_id]. intros x' X. ev.
      rewrite (Rltb_t x') by lra. now rewrite Rltb_t.
    + apply (smooth _ _ _ (- x) (fun _ => 0)); [lra| |apply c_const]. intros x' X. ev.
      rewrite (Rltb_t x') by lra. now rewrite Rltb_f by lra.
  - split.
    + intros S. destruct (Rlt_dec 0 g) as [P|P]; [tauto|exfalso].
      destruct (Req_dec g 0) as [->|N].
      * revert S. rewrite (glue 1 [0] 0 1 (fun _ => 1) (fun u => u)); try lra.
        -- intros x' X. ev. rewrite Rltb_f by lra. unfold ext_pow. now rewrite Reqb_t.
        -- intros x' X. ev. rewrite Rltb_t by lra. rewrite Rabs_R0. rewrite Rltb_t by (pose proof tol_pos; lra). reflexivity.
        -- apply c_const.
        -- apply c_id.
      * revert S. apply not_number. intros y. rewrite type1_at0 by lra. destruct (Req_EM_T g 0); [lra|discriminate].
    + intros G. specialize (G eq_refl).
      destruct (Rlt_dec (Rabs g - 1) tol) as [T|T].
      * apply (glue 1 [g] 0 1 (fun u => above u g) (fun u => u)); try lra.
        -- intros x' X. rewrite type1_val by lra. now rewrite above_power by lra.
        -- intros x' X. ev. rewrite (Rltb_t x') by lra. now rewrite Rltb_t.
        -- now apply c_above.
        -- apply c_id.
        -- now rewrite above_neg by lra.
      * apply (glue 1 [g] 0 1 (fun u => above u g) (fun _ => 0)); try lra.
        -- intros x' X. rewrite type1_val by lra. now rewrite above_power by lra.
        -- intros x' X. ev. rewrite (Rltb_t x') by lra. now rewrite Rltb_f by lra.
        -- now apply c_above.
        -- apply c_const.
        -- now rewrite above_neg by lra.
  - split; [lra|]. intros _. apply (smooth _ _ _ x (fun u => Rpower u g)); [lra| |now apply c_Rpower].
    intros x' X. rewrite type1_val by lra. now rewrite power_pos by lra.
Qed.

Lemma type1r_steady g x : steady (-1) [g] x <-> (x = 0 -> tol <= g).
Proof.
  pose proof tol_pos as TP.
  assert (NEG : forall x', x' < 0 -> eval_real (-1) [g] x' = Some (Fin (if Rlt_dec (Rabs (g - 1)) tol then x' else 0))).
  { intros x' X. ev. rewrite Rltb_t by exact X. destruct (Rlt_dec (Rabs (g - 1)) tol) as [T|T].
    - now rewrite Rltb_t.
    - now rewrite Rltb_f by lra. }
  assert (NC : forall x, cont (fun x' => if Rlt_dec (Rabs (g - 1)) tol then x' else 0) x).
  { intros u. destruct (Rlt_dec (Rabs (g - 1)) tol); [apply c_id|apply c_const]. }
  assert (POS : forall x', 0 < x' -> eval_real (-1) [g] x' =
     Some (Fin (if Rlt_dec (Rabs g) tol then 10 ^ 22 else Rpower x' (1 / g)))).
  { intros x' X. ev. rewrite Rltb_f by lra. destruct (Rlt_dec (Rabs g) tol) as [T|T].
    - now rewrite Rltb_t.
    - rewrite Rltb_f by lra. rewrite div_fin by (apply abs_nz; lra). rewrite pow_fin by exact X. now rewrite power_pos by exact X. }
  destruct (Rtotal_order x 0) as [L|[->|L]].
  - split; [lra|]. intros _. apply (smooth _ _ _ (- x) (fun x' => if Rlt_dec (Rabs (g - 1)) tol then x' else 0)); [lra| |apply NC].
    intros x' X. apply NEG. lra.
  - destruct (Rlt_dec (Rabs g) tol) as [T|T].
    + assert (SM : tol <= g -> False) by (intros H; rewrite Rabs_right in T; lra).
      rewrite (glue (-1) [g] 0 1 (fun _ => 10 ^ 22) (fun x' => if Rlt_dec (Rabs (g - 1)) tol then x' else 0)); [|lra| | |apply c_const|apply NC].
      * split; [|intros H; exfalso; auto]. intros H. exfalso.
        assert (10 ^ 22 = 0) by (rewrite H; destruct (Rlt_dec (Rabs (g - 1)) tol); reflexivity). lra.
      * intros x' X. ev. rewrite Rltb_f by lra. now rewrite Rltb_t.
      * intros x' X. apply NEG. lra.
    + pose proof (abs_nz g ltac:(lra)) as NZ. destruct (Rlt_dec 0 g) as [P|P].
      * assert (tol <= g) by (rewrite Rabs_right in T; lra). split; [tauto|]. intros _.
        assert (I : 0 < 1 / g) by (apply Rdiv_lt_0_compat; lra).
        apply (glue (-1) [g] 0 1 (fun u => above u (1 / g)) (fun x' => if Rlt_dec (Rabs (g - 1)) tol then x' else 0)); [lra| | |now apply c_above|apply NC|].
        -- intros x' X. ev. rewrite Rltb_f by lra. rewrite Rltb_f by lra. rewrite div_fin by exact NZ.
           rewrite pow_fin0 by lra. now rewrite above_power by lra.
        -- intros x' X. apply NEG. lra.
        -- rewrite above_neg by lra. destruct (Rlt_dec (Rabs (g - 1)) tol); reflexivity.
      * split; [|intros H; specialize (H eq_refl); lra]. intros S. exfalso. revert S. apply not_number. intros y.
        ev. rewrite Rltb_f by lra. rewrite Rltb_f by lra. rewrite div_fin by exact NZ. unfold ext_pow.
        assert (I : 1 / g < 0).
        { unfold Rdiv. rewrite Rmult_1_l. apply Rinv_lt_0_compat. lra. }
        rewrite Reqb_f by lra. rewrite Rltb_f by lra. rewrite Reqb_t by reflexivity. rewrite Rltb_f by lra. discriminate.
  - split; [lra|]. intros _.
    apply (smooth _ _ _ x (fun x' => if Rlt_dec (Rabs g) tol then 10 ^ 22 else Rpower x' (1 / g))); [lra| |].
    + intros x' X. apply POS. lra.
    + destruct (Rlt_dec (Rabs g) tol); [apply c_const|now apply c_Rpower].
Qed.

(** ** Types 2 to 6 *)
Lemma c_above_line g a b x : (a * x + b = 0 -> 0 < g) -> cont (fun u => above (a * u + b) g) x.
Proof.
  intros H. apply (c_comp (fun u => a * u + b) (fun v => above v g)); [apply c_line|].
  destruct (Rtotal_order (a * x + b) 0) as [L|[E|L]].
  - apply (cont_near (fun _ => 0) _ _ (- (a * x + b))); [lra| |apply c_const]. intros v V. rewrite above_neg; lra.
  - apply c_above. tauto.
  - apply (cont_near (fun u => Rpower u g) _ _ (a * x + b)); [lra| |now apply c_Rpower]. intros v V. rewrite above_pos; lra.
Qed.
Lemma above_line_breaks g a b : 0 < a -> g <= 0 -> ~ cont (fun u => above (a * u + b) g) (- b / a).
Proof.
  intros A G C. rewrite cont_eps in C. destruct (C 1 ltac:(lra)) as (dl & D & K).
  assert (Z : a * (- b / a) + b = 0) by (field; lra). rewrite Z in K. rewrite above_neg in K by lra.
  set (u := Rmin (dl / 2) (1 / a)).
  assert (U : 0 < u) by (apply Rmin_pos; [lra|]; apply Rdiv_lt_0_compat; lra).
  pose proof (Rmin_l (dl / 2) (1 / a)) as U1. pose proof (Rmin_r (dl / 2) (1 / a)) as U2. fold u in U1, U2.
  specialize (K (- b / a + u) ltac:(lra)).
  replace (a * (- b / a + u) + b) with (a * u) in K by (field; lra).
  assert (P : 0 < a * u) by (apply Rmult_lt_0_compat; lra). rewrite above_pos in K by exact P.
  assert (Q : a * u <= 1).
  { apply (Rmult_le_compat_l a) in U2; [|lra]. replace (a * (1 / a)) with 1 in U2 by (field; lra). exact U2. }
  assert (1 <= Rpower (a * u) g); [|lra].
  unfold Rpower. rewrite <- exp_0.
  assert (N : 0 <= g * ln (a * u)).
  { assert (ln (a * u) <= 0) by (rewrite <- ln_1; destruct Q as [Q|Q]; [left; now apply ln_increasing|rewrite Q; lra]).
    replace (g * ln (a * u)) with ((- g) * (- ln (a * u))) by ring. apply Rmult_le_pos; lra. }
  destruct N as [N|N]; [left; now apply exp_increasing|rewrite <- N; lra].
Qed.
Lemma line_zero a b x : a <> 0 -> (a * x + b = 0 <-> x = - b / a).
Proof.
  intros A. split.
  - intros H. apply (Rmult_eq_reg_l a); [|exact A]. replace (a * (- b / a)) with (- b) by (now field). lra.
  - intros ->. now field.
Qed.
Lemma type2_above g a b x : tol <= a -> eval_real 2 [g; a; b] x = Some (Fin (above (a * x + b) g)).
Proof.
  intros A. pose proof tol_pos as T. ev. rewrite small_abs by (now apply abs_ge_pos). rewrite div_fin by lra. ar.
  destruct (Rlt_dec x (- b / a)) as [L|L].
  - rewrite (Rltb_t x) by exact L. cbn [negb]. rewrite above_neg; [reflexivity|].
    destruct (Rle_dec (a * x + b) 0) as [|N]; [assumption|]. assert (- b / a < x) by (apply break_lt; lra). lra.
  - rewrite (Rltb_f x) by lra. cbn [negb]. destruct (Rlt_dec 0 (a * x + b)) as [P|P].
    + rewrite Rltb_t by exact P. rewrite pow_fin by exact P. rewrite above_pos by exact P. now rewrite power_pos.
    + rewrite Rltb_f by lra. now rewrite above_neg by lra.
Qed.
Lemma steady_whole t ps G x : (forall u, eval_real t ps u = Some (Fin (G u))) -> (steady t ps x <-> cont G x).
Proof.
  intros H. split.
  - intros (y & Y & K). rewrite H in Y. injection Y as <-. apply cont_eps. intros eps E.
    destruct (K eps E) as (dl & D & K1). exists dl. split; [exact D|]. intros x' X.
    destruct (K1 x' X) as (y' & Y' & B). rewrite H in Y'. injection Y' as <-. exact B.
  - intros C. apply (smooth t ps x 1 G); [lra| |exact C]. intros. apply H.
Qed.
Lemma type2_steady g a b x : steady 2 [g; a; b] x <-> (tol <= a -> x = - b / a -> 0 < g).
Proof.
  pose proof tol_pos as TP. destruct (Rle_dec tol a) as [A|A].
  - rewrite (steady_whole 2 [g; a; b] (fun u => above (a * u + b) g)) by (intros u; now apply type2_above). split.
    + intros C _ ->. destruct (Rlt_dec 0 g) as [P|P]; [exact P|]. exfalso. revert C. apply above_line_breaks; lra.
    + intros H. apply c_above_line. intros E. apply H; [exact A|]. apply line_zero; [lra|exact E].
  - split; [intros _ H; lra|]. intros _. apply (steady_whole _ _ (fun _ => 0)); [|apply c_const]. intros u.
    destruct (Rlt_dec (Rabs a) tol) as [S|S]; [now apply (tiny_slope g a b 0)|].
    apply type2_negative_slope. unfold Rabs in S. destruct (Rcase_abs a); lra.
Qed.

Lemma near_pos F x : cont F x -> 0 < F x -> exists dl, 0 < dl /\ forall u, x - dl < u < x + dl -> 0 < F u.
Proof.
  intros C P. rewrite cont_eps in C. destruct (C (F x) P) as (dl & D & K). exists dl. split; [exact D|].
  intros u U. specialize (K u U). lra.
Qed.
Lemma near_neg F x : cont F x -> F x < 0 -> exists dl, 0 < dl /\ forall u, x - dl < u < x + dl -> F u < 0.
Proof.
  intros C P. destruct (near_pos (fun u => - F u) x) as (dl & D & K); [now apply c_opp|lra|].
  exists dl. split; [exact D|]. intros u U. specialize (K u U). lra.
Qed.
(** ** Powers that blow up *)
Lemma not_steady t ps x v k : eval_real t ps x = Some (Fin v) -> 0 < k ->
  (forall dl, 0 < dl -> exists u, x - dl < u < x + dl /\ forall y, eval_real t ps u = Some (Fin y) -> k <= Rabs (y - v)) ->
  ~ steady t ps x.
Proof.
  intros V K F (y & Y & S). rewrite V in Y. injection Y as <-. destruct (S k K) as (dl & D & B).
  destruct (F dl D) as (u & U & P). destruct (B u U) as (y & Y & C). specialize (P y Y).
  assert (Rabs (y - v) < k) by (apply Rabs_def1; lra). lra.
Qed.
Lemma Rpower_large h K : h < 0 -> 0 < K -> forall u, 0 < u <= Rpower K (1 / h) -> K <= Rpower u h.
Proof.
  intros H P u (U0 & U). assert (L : ln u <= 1 / h * ln K).
  { destruct U as [U|U]; [left|right].
    - apply ln_increasing in U; [|exact U0]. unfold Rpower in U. now rewrite ln_exp in U.
    - rewrite U. unfold Rpower. now rewrite ln_exp. }
  apply (Rmult_le_compat_neg_l h) in L; [|lra]. replace (h * (1 / h * ln K)) with (ln K) in L by (field; lra).
  unfold Rpower. destruct L as [L|L].
  - left. apply exp_increasing in L. now rewrite exp_ln in L.
  - right. rewrite <- L. symmetry. now apply exp_ln.
Qed.
Lemma Rpower_ge1 h u : h <= 0 -> 0 < u <= 1 -> 1 <= Rpower u h.
Proof.
  intros H U. destruct H as [H| ->].
  - apply Rpower_large; [exact H|lra|]. unfold Rpower. rewrite ln_1, Rmult_0_r, exp_0. exact U.
  - unfold Rpower. rewrite Rmult_0_l, exp_0. lra.
Qed.
(** Above its zero the power of a rising line is at least 1 if the exponent is not positive. *)
Lemma line_power_far g a b x : 0 < a -> a * x + b = 0 -> g <= 0 -> forall dl, 0 < dl ->
  exists u, x < u < x + dl /\ 0 < a * u + b /\ 1 <= Rpower (a * u + b) g.
Proof.
  intros A Z G dl D. set (h := Rmin (dl / 2) (1 / a)).
  assert (H : 0 < h) by (apply Rmin_pos; [lra|]; apply Rdiv_lt_0_compat; lra).
  pose proof (Rmin_l (dl / 2) (1 / a)) as H1. pose proof (Rmin_r (dl / 2) (1 / a)) as H2. fold h in H1, H2.
  exists (x + h). split; [lra|].
  replace (a * (x + h) + b) with (a * h) by lra.
  assert (P : 0 < a * h) by (apply Rmult_lt_0_compat; lra).
  assert (Q : a * h <= 1).
  { apply (Rmult_le_compat_l a) in H2; [|lra]. replace (a * (1 / a)) with 1 in H2 by (field; lra). exact H2. }
  split; [exact P|]. apply Rpower_ge1; lra.
Qed.

Lemma type3_steady g a b c x :
  steady 3 [g; a; b; c] x <-> (tol <= Rabs a -> x = Rmax (- b / a) 0 -> c = 0 /\ (0 < a -> b <= 0 /\ 0 < g)).
Proof.
  pose proof tol_pos as TP. destruct (Rlt_dec (Rabs a) tol) as [S|S].
  { split; [intros _ H; lra|]. intros _. apply (steady_whole _ _ (fun _ => 0)); [|apply c_const]. intros u. now apply (tiny_slope g a b c). }
  pose proof (abs_nz a ltac:(lra)) as NZ.
  set (disc := Rmax (- b / a) 0).
  assert (LOW : forall u, u < disc -> eval_real 3 [g; a; b; c] u = Some (Fin c)).
  { intros u U. ev. rewrite small_abs by lra. rewrite div_fin by exact NZ. rewrite max_fin. fold disc. ar. now rewrite Rltb_t by exact U. }
  assert (HIGH : forall u, disc <= u -> eval_real 3 [g; a; b; c] u =
     Some (Fin (if Rlt_dec 0 (a * u + b) then above (a * u + b) g + c else 0))).
  { intros u U. ev. rewrite small_abs by lra. rewrite div_fin by exact NZ. rewrite max_fin. fold disc. ar. rewrite (Rltb_f u) by exact U. cbn [negb].
    destruct (Rlt_dec 0 (a * u + b)) as [P|P].
    - rewrite Rltb_t by exact P. rewrite pow_fin by exact P. ar. now rewrite above_power by lra.
    - now rewrite Rltb_f by lra. }
  destruct (Rtotal_order x disc) as [L|[E|L]].
  - split; [lra|]. intros _. apply (smooth _ _ _ (disc - x) (fun _ => c)); [lra| |apply c_const]. intros u U. apply LOW. lra.
  - subst x. destruct (Rlt_dec 0 a) as [A|A].
    + destruct (Rle_dec b 0) as [B|B].
      * assert (D : disc = - b / a).
        { apply Rmax_left. apply Rmult_le_reg_r with a; [exact A|]. replace (- b / a * a) with (- b) by (now field). lra. }
        assert (Z : a * disc + b = 0) by (rewrite D; now field).
        destruct (Rle_dec g 0) as [G|G].
        { split.
          - intros H. exfalso. revert H. apply (not_steady _ _ _ 0 (1 / 2)); [|lra|].
            + rewrite HIGH by lra. rewrite Z. destruct (Rlt_dec 0 0); [lra|reflexivity].
            + intros dl DL. destruct (Rle_dec (1 / 2) (Rabs c)) as [C|C].
              * exists (disc - dl / 2). split; [lra|]. intros y Y. rewrite LOW in Y by lra. injection Y as <-. now rewrite Rminus_0_r.
              * destruct (line_power_far g a b disc A Z G dl DL) as (u & U & P & Q). exists u. split; [lra|]. intros y Y.
                rewrite HIGH in Y by lra. destruct (Rlt_dec 0 (a * u + b)); [|lra]. injection Y as <-. rewrite above_pos by exact P.
                assert (- (1 / 2) < c < 1 / 2) by (apply Rnot_le_lt, Rabs_def2 in C; lra). rewrite Rabs_right by lra. lra.
          - intros H. destruct (H ltac:(lra) eq_refl) as (_ & H2). destruct (H2 A). lra. }
        rewrite (glue3 _ _ disc 1 0 (fun u => above (a * u + b) g + c) (fun _ => c)); [| lra | | | | |apply c_const].
        -- rewrite D. replace (a * (- b / a) + b) with 0 by (now field). rewrite above_neg by lra. split.
           ++ intros (H1 & H2) _ _. split; [lra|]. intros _. lra.
           ++ intros H. destruct (H ltac:(lra) eq_refl). lra.
        -- rewrite HIGH by lra. rewrite D. replace (a * (- b / a) + b) with 0 by (now field). destruct (Rlt_dec 0 0); [lra|reflexivity].
        -- intros u U. rewrite HIGH by lra. destruct (Rlt_dec 0 (a * u + b)) as [P|P]; [reflexivity|]. exfalso. apply P. apply break_lt; lra.
        -- intros u U. apply LOW. lra.
        -- apply c_plus; [|apply c_const]. apply c_above_line. lra.
      * assert (D : disc = 0).
        { apply Rmax_right. apply Rmult_le_reg_r with a; [exact A|]. replace (- b / a * a) with (- b) by (now field). lra. }
        rewrite (glue _ _ disc 1 (fun u => above (a * u + b) g + c) (fun _ => c)); [| lra | | | |apply c_const].
        -- rewrite D. replace (a * 0 + b) with b by ring. rewrite above_pos by lra. pose proof (Rpower_pos b g). split.
           ++ intros H1. lra.
           ++ intros H1. destruct (H1 ltac:(lra) eq_refl) as (_ & H2). destruct (H2 A). lra.
        -- intros u U. rewrite HIGH by lra. destruct (Rlt_dec 0 (a * u + b)) as [P|P]; [reflexivity|]. exfalso. apply P.
           assert (0 <= a * u) by (apply Rmult_le_pos; lra). lra.
        -- intros u U. apply LOW. lra.
        -- apply c_plus; [|apply c_const]. apply c_above_line. rewrite D. lra.
    + rewrite (glue _ _ disc 1 (fun _ => 0) (fun _ => c)); [| lra | | |apply c_const|apply c_const].
      * split; [intros H _ _; split; [lra|intros; lra]|]. intros H. destruct (H ltac:(lra) eq_refl). lra.
      * intros u U. rewrite HIGH by lra. destruct (Rlt_dec 0 (a * u + b)) as [P|P]; [|reflexivity]. exfalso.
        pose proof (Rmax_l (- b / a) 0) as M. fold disc in M. assert (H : - b / a <= u) by lra.
        apply (Rmult_le_compat_l (- a)) in H; [|lra]. replace (- a * (- b / a)) with b in H by (now field). lra.
      * intros u U. apply LOW. lra.
  - split; [lra|]. intros _.
    destruct (Rlt_dec 0 a) as [A|A].
    + apply (smooth _ _ _ (x - disc) (fun u => above (a * u + b) g + c)); [lra| |].
      * intros u U. rewrite HIGH by lra. destruct (Rlt_dec 0 (a * u + b)) as [P|P]; [reflexivity|]. exfalso. apply P. apply break_lt; [exact A|].
        pose proof (Rmax_l (- b / a) 0) as M. fold disc in M. lra.
      * apply c_plus; [|apply c_const]. apply c_above_line. intros Z. apply line_zero in Z; [|exact NZ].
        pose proof (Rmax_l (- b / a) 0) as M. fold disc in M. lra.
    + apply (smooth _ _ _ (x - disc) (fun u => 0)); [lra| |apply c_const].
      intros u U. rewrite HIGH by lra. destruct (Rlt_dec 0 (a * u + b)) as [P|P]; [|reflexivity]. exfalso.
      pose proof (Rmax_l (- b / a) 0) as M. fold disc in M. assert (H : - b / a <= u) by lra.
      apply (Rmult_le_compat_l (- a)) in H; [|lra]. replace (- a * (- b / a)) with b in H by (now field). lra.
Qed.

Lemma type5_steady g a b c d e f x :
  steady 5 [g; a; b; c; d; e; f] x <->
  (x = d -> c * d + f = above (a * d + b) g + e) /\ (d <= x -> a * x + b = 0 -> a <> 0 -> (x = d -> 0 < a) -> 0 < g).
Proof.
  assert (LOW : forall u, u < d -> eval_real 5 [g; a; b; c; d; e; f] u = Some (Fin (u * c + f))).
  { intros u U. ev. now rewrite Rltb_t by exact U. }
  assert (HIGH : forall u, d <= u -> eval_real 5 [g; a; b; c; d; e; f] u = Some (Fin (above (a * u + b) g + e))).
  { intros u U. ev. rewrite (Rltb_f u) by exact U. cbn [negb]. destruct (Rlt_dec 0 (a * u + b)) as [P|P].
    - rewrite Rltb_t by exact P. rewrite pow_fin by exact P. ar. now rewrite above_power by lra.
    - rewrite Rltb_f by lra. rewrite above_neg by lra. now rewrite Rplus_0_l. }
  assert (CL : forall u, cont (fun v => v * c + f) u) by (intros u; apply c_plus; [apply c_mult; [apply c_id|apply c_const]|apply c_const]).
  assert (CH : forall u, (a * u + b = 0 -> 0 < g) -> cont (fun v => above (a * v + b) g + e) u)
    by (intros u U; apply c_plus; [now apply c_above_line|apply c_const]).
  assert (VAL : forall u, a * u + b = 0 -> d <= u -> eval_real 5 [g; a; b; c; d; e; f] u = Some (Fin e)).
  { intros u Z U. rewrite HIGH by exact U. rewrite Z, above_neg by lra. now rewrite Rplus_0_l. }
  destruct (Rtotal_order x d) as [L|[->|L]].
  - split; [intros _; split; lra|]. intros _. apply (smooth _ _ _ (d - x) (fun v => v * c + f)); [lra| |apply CL]. intros u U. apply LOW. lra.
  - destruct (Rlt_dec 0 g) as [G|G]; [|destruct (Req_dec (a * d + b) 0) as [Z|Z]; [destruct (Rle_dec a 0) as [A|A]|]].
    + rewrite (glue _ _ d 1 (fun v => above (a * v + b) g + e) (fun v => v * c + f)); [|lra| | |now apply CH|apply CL].
      * split; [intros H; split; [intros _|]; lra|]. intros (H & _). specialize (H eq_refl). lra.
      * intros u U. apply HIGH. lra.
      * intros u U. apply LOW. lra.
    + rewrite (glue _ _ d 1 (fun _ => e) (fun v => v * c + f)); [|lra| | |apply c_const|apply CL].
      * rewrite Z, above_neg by lra. split; [intros H; split; [intros _; lra|intros _ _ NZ H2; specialize (H2 eq_refl); lra]|]. intros (H & _). specialize (H eq_refl). lra.
      * intros u U. rewrite HIGH by lra. rewrite above_neg; [now rewrite Rplus_0_l|].
        assert (a * (u - d) <= 0) by (rewrite <- (Rmult_0_l (u - d)); apply Rmult_le_compat_r; lra). lra.
      * intros u U. apply LOW. lra.
    + split.
      * intros S. exfalso. revert S. apply (not_steady _ _ _ e 1); [apply VAL; lra|lra|]. intros dl DL.
        destruct (line_power_far g a b d ltac:(lra) Z ltac:(lra) dl DL) as (u & U & P & Q). exists u. split; [lra|]. intros y Y.
        rewrite HIGH in Y by lra. injection Y as <-. rewrite above_pos by exact P. rewrite Rabs_right; lra.
      * intros (_ & H). exfalso. apply G. apply H; lra.
    + rewrite (glue _ _ d 1 (fun v => above (a * v + b) g + e) (fun v => v * c + f)); [|lra| | |now apply CH|apply CL].
      * split; [intros H; split; [intros _|]; lra|]. intros (H & _). specialize (H eq_refl). lra.
      * intros u U. apply HIGH. lra.
      * intros u U. apply LOW. lra.
  - destruct (Rlt_dec 0 g) as [G|G]; [|destruct (Req_dec (a * x + b) 0) as [Z|Z]; [destruct (Rtotal_order a 0) as [A|[->|A]]|]].
    + split; [intros _; split; lra|]. intros _. apply (smooth _ _ _ (x - d) (fun v => above (a * v + b) g + e)); [lra| |now apply CH]. intros u U. apply HIGH. lra.
    + split.
      * intros S. exfalso. revert S. apply (not_steady _ _ _ e 1); [apply VAL; lra|lra|]. intros dl DL.
        pose proof (Rmin_l dl (x - d)) as M1. pose proof (Rmin_r dl (x - d)) as M2.
        destruct (line_power_far g (- a) (a * x) x) with (dl := Rmin dl (x - d)) as (u & U & P & Q); try lra; [apply Rmin_pos; lra|].
        exists (2 * x - u). split; [lra|]. intros y Y. rewrite HIGH in Y by lra. injection Y as <-.
        replace (a * (2 * x - u) + b) with (- a * u + a * x) by lra. rewrite above_pos by exact P. rewrite Rabs_right; lra.
      * intros (_ & H). exfalso. apply G. apply H; lra.
    + split; [intros _; split; lra|]. intros _. apply (smooth _ _ _ (x - d) (fun v => e)); [lra| |apply c_const]. intros u U. rewrite HIGH by lra.
      rewrite above_neg by lra. now rewrite Rplus_0_l.
    + split.
      * intros S. exfalso. revert S. apply (not_steady _ _ _ e 1); [apply VAL; lra|lra|]. intros dl DL.
        destruct (line_power_far g a b x ltac:(lra) Z ltac:(lra) dl DL) as (u & U & P & Q). exists u. split; [lra|]. intros y Y.
        rewrite HIGH in Y by lra. injection Y as <-. rewrite above_pos by exact P. rewrite Rabs_right; lra.
      * intros (_ & H). exfalso. apply G. apply H; lra.
    + split; [intros _; split; lra|]. intros _. apply (smooth _ _ _ (x - d) (fun v => above (a * v + b) g + e)); [lra| |now apply CH]. intros u U. apply HIGH. lra.
Qed.
Lemma steady_ext t ps t' ps' x : (forall u, eval_real t ps u = eval_real t' ps' u) -> (steady t ps x <-> steady t' ps' x).
Proof.
  intros H. unfold steady. split; intros (y & Y & K); exists y; (split; [now rewrite ?H in *; rewrite <- ?H in *|]);
  intros eps E; destruct (K eps E) as (dl & D & K1); exists dl; (split; [exact D|]); intros x' X;
  destruct (K1 x' X) as (y' & Y' & B); exists y'; (split; [|exact B]); [rewrite <- H|rewrite H]; exact Y'.
Qed.
Lemma type4_steady g a b c d x :
  steady 4 [g; a; b; c; d] x <->
  (x = d -> c * d = above (a * d + b) g) /\ (d <= x -> a * x + b = 0 -> a <> 0 -> (x = d -> 0 < a) -> 0 < g).
Proof.
  rewrite (steady_ext 4 _ 5 [g; a; b; c; d; 0; 0]) by (intros u; symmetry; apply type5_is_4_any).
  rewrite type5_steady. rewrite !Rplus_0_r. reflexivity.
Qed.
Lemma type6_steady g a b c x : steady 6 [g; a; b; c] x <-> (a * x + b = 0 -> 0 < g \/ (g = 0 /\ a = 0)).
Proof.
  assert (VAL : forall u, a * u + b <> 0 \/ 0 < g -> eval_real 6 [g; a; b; c] u = Some (Fin (above (a * u + b) g + c))).
  { intros u U. ev. destruct (Rlt_dec (a * u + b) 0) as [P|P].
    + rewrite Rltb_t by exact P. rewrite above_neg by lra. now rewrite Rplus_0_l.
    + rewrite Rltb_f by lra. destruct (Rlt_dec 0 (a * u + b)) as [Q|Q].
      * rewrite pow_fin by exact Q. ar. now rewrite above_power by lra.
      * rewrite pow_fin0 by lra. ar. now rewrite above_power by lra. }
  assert (CT : forall u, (a * u + b = 0 -> 0 < g) -> cont (fun u => above (a * u + b) g + c) u)
    by (intros u U; apply c_plus; [now apply c_above_line|apply c_const]).
  destruct (Req_dec (a * x + b) 0) as [Z|Z].
  - destruct (zero_base g a b c x Z) as (ZN & Z0). destruct (Rtotal_order g 0) as [G|[->|G]].
    + split; [|intros H; specialize (H Z); lra]. intros S. exfalso. revert S. apply not_number. intros y.
      destruct (ZN G) as (_ & ->). discriminate.
    + destruct (Z0 eq_refl) as (_ & V). destruct (Req_dec a 0) as [->|A].
      * split; [intros _ _; right; lra|]. intros _. apply (smooth _ _ _ 1 (fun _ => 1 + c)); [lra| |apply c_const]. intros u U.
        apply (zero_base 0 0 b c u); lra.
      * split; [|intros H; specialize (H Z); lra]. intros S. exfalso. revert S. apply (not_steady _ _ _ _ 1 V); [lra|]. intros dl DL.
        set (h := if Rlt_dec 0 a then - dl / 2 else dl / 2).
        assert (H : - dl < h < dl /\ a * h < 0).
        { unfold h. destruct (Rlt_dec 0 a) as [P|P]; (split; [lra|]).
          - replace (a * (- dl / 2)) with (- (a * (dl / 2))) by field. assert (0 < a * (dl / 2)) by (apply Rmult_lt_0_compat; lra). lra.
          - replace (a * (dl / 2)) with (- (- a * (dl / 2))) by field. assert (0 < - a * (dl / 2)) by (apply Rmult_lt_0_compat; lra). lra. }
        exists (x + h). split; [lra|]. intros y Y. rewrite VAL in Y by lra. injection Y as <-. rewrite above_neg by lra.
        rewrite Rabs_left by lra. lra.
    + split; [intros _ _; now left|]. intros _. apply (smooth _ _ _ 1 (fun u => above (a * u + b) g + c)); [lra| |now apply CT].
      intros u U. apply VAL. now right.
  - split; [lra|]. intros _. destruct (Rlt_dec 0 (a * x + b)) as [P|P].
    + destruct (near_pos (fun u => a * u + b) x (c_line a b x) P) as (dl & D & K).
      apply (smooth _ _ _ dl (fun u => above (a * u + b) g + c)); [exact D| |now apply CT]. intros u U. apply VAL. specialize (K u U). cbn beta in K. lra.
    + destruct (near_neg (fun u => a * u + b) x (c_line a b x) ltac:(lra)) as (dl & D & K).
      apply (smooth _ _ _ dl (fun u => above (a * u + b) g + c)); [exact D| |now apply CT]. intros u U. apply VAL. specialize (K u U). cbn beta in K. lra.
Qed.

(** ** Types 7, 8, 108, 109 *)
Lemma c_log f x : cont f x -> 0 < f x -> cont (fun u => log_10 (f u)) x.
Proof.
  intros C P. unfold log_10. apply c_div; [|apply c_const|pose proof ln10_pos; lra].
  apply (c_comp f ln); [exact C|now apply c_ln].
Qed.
Lemma type7_at g a b c d u : 0 < u -> eval_real 7 [g; a; b; c; d] u =
  Some (Fin (if Rlt_dec 0 (b * Rpower u g + c) then a * log_10 (b * Rpower u g + c) + d else d)).
Proof.
  intros U. ev. rewrite pow_fin by exact U. rewrite power_pos by exact U. ar.
  destruct (Rlt_dec 0 (b * Rpower u g + c)) as [P|P].
  - rewrite Rltb_t by exact P. cbn [negb]. rewrite log_fin by exact P. reflexivity.
  - now rewrite Rltb_f by lra.
Qed.
Lemma type7_steady g a b c d x : 0 < x ->
  (steady 7 [g; a; b; c; d] x <-> (b * Rpower x g + c = 0 -> a = 0 \/ b = 0 \/ g = 0)).
Proof.
  intros X0. set (F := fun u => b * Rpower u g + c).
  assert (CF : forall u, 0 < u -> cont F u).
  { intros u U. apply c_plus; [|apply c_const]. apply c_mult; [apply c_const|now apply c_Rpower]. }
  destruct (Rtotal_order (F x) 0) as [L|[E|L]].
  - split; [unfold F in L; lra|]. intros _. destruct (near_neg F x (CF x X0) L) as (dl & D & K).
    apply (smooth _ _ _ (Rmin dl x) (fun _ => d)); [apply Rmin_pos; lra| |apply c_const]. intros u U.
    pose proof (Rmin_l dl x). pose proof (Rmin_r dl x). rewrite type7_at by lra.
    specialize (K u ltac:(lra)). unfold F in K. destruct (Rlt_dec 0 (b * Rpower u g + c)); [lra|reflexivity].
  - fold (F x). split.
    + intros S _. destruct (Req_dec a 0) as [|A]; [tauto|]. destruct (Req_dec b 0) as [|B]; [tauto|].
      destruct (Req_dec g 0) as [|G]; [tauto|]. exfalso.
      destruct S as (y & Y & K). rewrite type7_at in Y by exact X0. fold (F x) in Y.
      destruct (Rlt_dec 0 (F x)); [lra|]. injection Y as <-. destruct (K 1 ltac:(lra)) as (dl & D & K1).
      (* the input whose value of F is [h] *)
      set (inp := fun h => Rpower (Rpower x g + h / b) (1 / g)).
      assert (I0 : inp 0 = x).
      { unfold inp. replace (0 / b) with 0 by (now field). rewrite Rplus_0_r, Rpower_mult.
        replace (g * (1 / g)) with 1 by (now field). now apply Rpower_1. }
      set (N := fun h => Rpower x g + h / b).
      assert (CN : forall h, cont N h).
      { intros h. apply c_plus; [apply c_const|]. unfold Rdiv. apply c_mult; [apply c_id|apply c_const]. }
      assert (N0 : 0 < N 0) by (unfold N; replace (0 / b) with 0 by (now field); rewrite Rplus_0_r; apply Rpower_pos).
      assert (CI : cont inp 0) by (unfold inp; apply (c_comp N (fun v => Rpower v (1 / g))); [apply CN|now apply c_Rpower]).
      destruct (near_pos N 0 (CN 0) N0) as (d1 & D1 & P1).
      rewrite cont_eps in CI. destruct (CI (Rmin dl x) ltac:(apply Rmin_pos; lra)) as (d2 & D2 & P2). rewrite I0 in P2.
      set (top := Rpower 10 (- (1 / Rabs a))).
      assert (AP : 0 < Rabs a) by (now apply Rabs_pos_lt).
      assert (T1 : 0 < top) by apply Rpower_pos.
      set (h := Rmin top (Rmin d1 d2) / 2).
      assert (H0 : 0 < Rmin top (Rmin d1 d2)) by (repeat apply Rmin_pos; lra).
      assert (H : 0 < h /\ h < top /\ h < d1 /\ h < d2).
      { unfold h. pose proof (Rmin_l top (Rmin d1 d2)). pose proof (Rmin_r top (Rmin d1 d2)).
        pose proof (Rmin_l d1 d2). pose proof (Rmin_r d1 d2). lra. }
      clearbody h. specialize (P1 h ltac:(lra)). specialize (P2 h ltac:(lra)).
      pose proof (Rmin_l dl x). pose proof (Rmin_r dl x).
      assert (IP : 0 < inp h) by apply Rpower_pos.
      assert (FH : F (inp h) = h).
      { unfold F, inp. fold (N h). rewrite Rpower_mult. replace (1 / g * g) with 1 by (now field). rewrite Rpower_1 by exact P1.
        unfold N. unfold F in E. replace (b * (Rpower x g + h / b) + c) with (b * Rpower x g + c + h) by (now field). lra. }
      destruct (K1 (inp h) ltac:(lra)) as (y' & Y' & B').
      rewrite type7_at in Y' by exact IP. fold (F (inp h)) in Y'. rewrite FH in Y'.
      destruct (Rlt_dec 0 h) as [P9|P9]; [|lra]. injection Y' as <-.
      assert (LG : log_10 h < - (1 / Rabs a)).
      { unfold log_10. pose proof ln10_pos as T10. apply Rmult_lt_reg_r with (ln 10); [exact T10|].
        replace (ln h / ln 10 * ln 10) with (ln h) by (field; lra).
        replace (- (1 / Rabs a) * ln 10) with (ln top) by (unfold top, Rpower; now rewrite ln_exp). apply ln_increasing; lra. }
      set (q := log_10 h) in *. clearbody q.
      assert (Rabs (a * q) < 1) by (apply Rabs_def1; lra).
      rewrite Rabs_mult in *.
      assert (Q : 1 / Rabs a < Rabs q).
      { unfold Rabs at 2. assert (0 < 1 / Rabs a) by (apply Rdiv_lt_0_compat; lra). destruct (Rcase_abs q); lra. }
      apply (Rmult_lt_compat_l (Rabs a)) in Q; [|exact AP]. replace (Rabs a * (1 / Rabs a)) with 1 in Q by (field; lra). lra.
    + intros H. specialize (H E).
      assert (FLAT : forall u, 0 < u -> eval_real 7 [g; a; b; c; d] u = Some (Fin d)).
      { intros u U. rewrite type7_at by exact U. destruct (Rlt_dec 0 (b * Rpower u g + c)) as [P|P]; [|reflexivity].
        destruct H as [->|[->| ->]]; [now rewrite Rmult_0_l, Rplus_0_l| |]; unfold F in E; exfalso.
        - lra.
        - rewrite Rpower_O in E, P by assumption. lra. }
      apply (smooth _ _ _ x (fun _ => d)); [lra| |apply c_const]. intros u U. apply FLAT. lra.
  - split; [unfold F in L; lra|]. intros _. destruct (near_pos F x (CF x X0) L) as (dl & D & K).
    apply (smooth _ _ _ (Rmin dl x) (fun u => a * log_10 (F u) + d)); [apply Rmin_pos; lra| |].
    + intros u U. pose proof (Rmin_l dl x). pose proof (Rmin_r dl x). rewrite type7_at by lra.
      specialize (K u ltac:(lra)). fold (F u). destruct (Rlt_dec 0 (F u)); [reflexivity|lra].
    + apply c_plus; [|apply c_const]. apply c_mult; [apply c_const|]. apply c_log; [now apply CF|exact L].
Qed.
Lemma type8_steady a b c d e x : 0 < b -> steady 8 [a; b; c; d; e] x.
Proof.
  intros B. apply (steady_whole _ _ (fun u => a * Rpower b (c * u + d) + e)).
  - intros u. rewrite type8_formula by exact B. unfold icc8. now rewrite power_pos.
  - apply c_plus; [|apply c_const]. apply c_mult; [apply c_const|].
    apply (c_comp (fun u => c * u + d) (fun v => Rpower b v)); [apply c_line|apply c_Rpower_exponent].
Qed.
Lemma type108_steady g x : tol <= g -> 0 < x < 1 -> steady 108 [g] x.
Proof.
  intros G X. pose proof tol_pos as T. assert (I : 0 < 1 / g) by (apply Rdiv_lt_0_compat; lra).
  apply (smooth _ _ _ (Rmin x (1 - x)) (fun u => above (1 - above (1 - u) (1 / g)) (1 / g))); [apply Rmin_pos; lra| |].
  - intros u U. pose proof (Rmin_l x (1 - x)). pose proof (Rmin_r x (1 - x)).
    rewrite type108_val by lra. unfold s_curve. pose proof (power_unit (1 - u) (1 / g) ltac:(lra) I).
    rewrite (above_power (1 - u)) by lra. rewrite above_power by lra. reflexivity.
  - apply (c_comp (fun u => 1 - above (1 - u) (1 / g)) (fun v => above v (1 / g))); [|now apply c_above].
    apply c_minus; [apply c_const|]. apply (c_comp (fun u => 1 - u) (fun v => above v (1 / g))); [|now apply c_above].
    apply c_minus; [apply c_const|apply c_id].
Qed.
Lemma c_logistic k x : cont (logistic k) x.
Proof.
  unfold logistic. apply c_minus; [|apply c_const]. apply c_div; [apply c_const| |pose proof (logistic_den k x); lra].
  apply c_plus; [apply c_const|]. apply (c_comp (fun t => - k * t) exp); [|apply c_exp].
  apply c_mult; [apply c_const|apply c_id].
Qed.
Lemma type109_steady k x : k <> 0 -> steady 109 [k] x.
Proof.
  intros K. apply (steady_whole _ _ (sigmoid k)); [intros u; now apply type109_val|].
  unfold sigmoid. apply c_plus; [|apply c_const]. apply c_mult; [apply c_const|].
  apply (c_comp (fun u => 2 * u - 1) (logistic k)); [|apply c_logistic].
  apply c_minus; [apply c_mult; [apply c_const|apply c_id]|apply c_const].
Qed.

(** ** The reversed curves *)
Lemma c_root g a b x : 0 < g -> a <> 0 -> cont (fun u => (above u (1 / g) - b) / a) x.
Proof.
  intros G A. apply c_div; [|apply c_const|exact A]. apply c_minus; [|apply c_const]. apply c_above. apply Rdiv_lt_0_compat; lra.
Qed.
Lemma c_max0 f x : cont f x -> cont (fun u => if Rlt_dec (f u) 0 then 0 else f u) x.
Proof.
  intros C. rewrite cont_eps in *. intros eps E. destruct (C eps E) as (dl & D & K). exists dl. split; [exact D|].
  intros u U. specialize (K u U). destruct (Rlt_dec (f u) 0), (Rlt_dec (f x) 0); lra.
Qed.
Lemma type2r_pos g a b x : tol <= g ->
  (steady (-2) [g; a; b] x <-> (x = 0 -> tol <= Rabs a -> 0 <= b / a)).
Proof.
  intros G. pose proof tol_pos as T. destruct (Rlt_dec (Rabs a) tol) as [S|S].
  { split; [intros _ _ H; lra|]. intros _. apply (steady_whole _ _ (fun _ => 0)); [|apply c_const]. intros u. ev.
    rewrite (Rltb_t (Rabs a)) by exact S. now rewrite orb_true_r. }
  pose proof (abs_nz a ltac:(lra)) as NZ. assert (I : 0 < 1 / g) by (apply Rdiv_lt_0_compat; lra).
  set (V := fun u => if Rlt_dec ((above u (1 / g) - b) / a) 0 then 0 else (above u (1 / g) - b) / a).
  assert (CV : forall u, cont V u) by (intros u; apply c_max0, c_root; [lra|exact NZ]).
  assert (LOW : forall u, u < 0 -> eval_real (-2) [g; a; b] u = Some (Fin 0)).
  { intros u U. ev. rewrite !small_abs by (first [now apply abs_ge_pos|lra]). cbn [orb]. rewrite (Rltb_t u) by exact U. ar. now rewrite Rltb_f by lra. }
  assert (HIGH : forall u, 0 <= u -> eval_real (-2) [g; a; b] u = Some (Fin (V u))).
  { intros u U. ev. rewrite !small_abs by (first [now apply abs_ge_pos|lra]). cbn [orb]. rewrite (Rltb_f u) by exact U.
    rewrite (div_fin 1) by lra. rewrite pow_fin0 by lra. ar. rewrite div_fin by exact NZ. ar. unfold V. rewrite above_power by exact U.
    destruct (Rlt_dec ((power u (1 / g) - b) / a) 0) as [P|P]; [now rewrite Rltb_t|now rewrite Rltb_f by lra]. }
  destruct (Rtotal_order x 0) as [L|[->|L]].
  - split; [lra|]. intros _. apply (smooth _ _ _ (- x) (fun _ => 0)); [lra| |apply c_const]. intros u U. apply LOW. lra.
  - rewrite (glue _ _ 0 1 V (fun _ => 0)); [|lra| | |apply CV|apply c_const].
    + unfold V. rewrite above_neg by lra. replace ((0 - b) / a) with (- (b / a)) by (now field).
      destruct (Rlt_dec (- (b / a)) 0) as [P|P]; (split; [intros H _ _|intros H; specialize (H eq_refl ltac:(lra))]); lra.
    + intros u U. apply HIGH. lra.
    + intros u U. apply LOW. lra.
  - split; [lra|]. intros _. apply (smooth _ _ _ x V); [lra| |apply CV]. intros u U. apply HIGH. lra.
Qed.
Lemma c_root_shift g a b c x : 0 < g -> a <> 0 -> cont (fun u => (above (u - c) (1 / g) - b) / a) x.
Proof.
  intros G A. apply (c_comp (fun u => u - c) (fun v => (above v (1 / g) - b) / a)); [|now apply c_root].
  apply c_minus; [apply c_id|apply c_const].
Qed.
Lemma type3r_pos g a b c x : 0 < g ->
  (steady (-3) [g; a; b; c] x <-> (x = c -> tol <= Rabs a -> b = 0)).
Proof.
  intros G. pose proof tol_pos as T. destruct (Rlt_dec (Rabs a) tol) as [S|S].
  { split; [intros _ _ H; lra|]. intros _. apply (steady_whole _ _ (fun _ => 0)); [|apply c_const]. intros u. ev.
    now rewrite (Rltb_t (Rabs a)) by exact S. }
  pose proof (abs_nz a ltac:(lra)) as NZ. assert (I : 0 < 1 / g) by (apply Rdiv_lt_0_compat; lra).
  assert (LOW : forall u, u < c -> eval_real (-3) [g; a; b; c] u = Some (Fin (- b / a))).
  { intros u U. ev. rewrite !small_abs by lra. rewrite (Rltb_t u) by exact U. cbn [negb]. now rewrite div_fin by exact NZ. }
  assert (HIGH : forall u, c < u -> eval_real (-3) [g; a; b; c] u = Some (Fin ((above (u - c) (1 / g) - b) / a))).
  { intros u U. ev. rewrite !small_abs by lra. rewrite (Rltb_f u) by lra. cbn [negb]. rewrite Rltb_t by lra.
    rewrite (div_fin 1) by lra. rewrite pow_fin by lra. ar. rewrite div_fin by exact NZ. now rewrite above_power by lra. }
  destruct (Rtotal_order x c) as [L|[->|L]].
  - split; [lra|]. intros _. apply (smooth _ _ _ (c - x) (fun _ => - b / a)); [lra| |apply c_const]. intros u U. apply LOW. lra.
  - rewrite (glue3 _ _ c 1 0 (fun u => (above (u - c) (1 / g) - b) / a) (fun _ => - b / a)); [|lra| | | |now apply c_root_shift|apply c_const].
    + rewrite above_neg by lra. rewrite Rminus_0_l. split.
      * intros (H & _) _ _. replace b with (- (- b / a * a)) by (now field). rewrite H. ring.
      * intros H. rewrite (H eq_refl ltac:(lra)). split; now field.
    + ev. rewrite !small_abs by lra. rewrite (Rltb_f c) by lra. cbn [negb]. now rewrite Rltb_f by lra.
    + intros u U. apply HIGH. lra.
    + intros u U. apply LOW. lra.
  - split; [lra|]. intros _. apply (smooth _ _ _ (x - c) (fun u => (above (u - c) (1 / g) - b) / a)); [lra| |now apply c_root_shift].
    intros u U. apply HIGH. lra.
Qed.
Lemma type6r_pos g a b c x : 0 < g ->
  (steady (-6) [g; a; b; c] x <-> (x = c -> tol <= Rabs a -> b = 0)).
Proof.
  intros G. pose proof tol_pos as T. destruct (Rlt_dec (Rabs a) tol) as [S|S].
  { split; [intros _ _ H; lra|]. intros _. apply (steady_whole _ _ (fun _ => 0)); [|apply c_const]. intros u. ev.
    now rewrite (Rltb_t (Rabs a)) by exact S. }
  pose proof (abs_nz a ltac:(lra)) as NZ. assert (I : 0 < 1 / g) by (apply Rdiv_lt_0_compat; lra).
  assert (LOW : forall u, u < c -> eval_real (-6) [g; a; b; c] u = Some (Fin 0)).
  { intros u U. ev. rewrite !small_abs by lra. now rewrite Rltb_t by lra. }
  assert (HIGH : forall u, c <= u -> eval_real (-6) [g; a; b; c] u = Some (Fin ((above (u - c) (1 / g) - b) / a))).
  { intros u U. ev. rewrite !small_abs by lra. rewrite Rltb_f by lra.
    rewrite (div_fin 1) by lra. rewrite pow_fin0 by lra. ar. rewrite div_fin by exact NZ. now rewrite above_power by lra. }
  destruct (Rtotal_order x c) as [L|[->|L]].
  - split; [lra|]. intros _. apply (smooth _ _ _ (c - x) (fun _ => 0)); [lra| |apply c_const]. intros u U. apply LOW. lra.
  - rewrite (glue _ _ c 1 (fun u => (above (u - c) (1 / g) - b) / a) (fun _ => 0)); [|lra| | |now apply c_root_shift|apply c_const].
    + rewrite above_neg by lra. rewrite Rminus_0_l. split.
      * intros H _ _. replace b with (- (- b / a * a)) by (now field). rewrite H. ring.
      * intros H. rewrite (H eq_refl ltac:(lra)). now field.
    + intros u U. apply HIGH. lra.
    + intros u U. apply LOW. lra.
  - split; [lra|]. intros _. apply (smooth _ _ _ (x - c) (fun u => (above (u - c) (1 / g) - b) / a)); [lra| |now apply c_root_shift].
    intros u U. apply HIGH. lra.
Qed.
(** The same with any gamma. *)
Lemma usable_dec g a : {usable g a} + {Rabs g < tol \/ Rabs a < tol}.
Proof.
  unfold usable. destruct (Rlt_dec (Rabs g) tol); [right; tauto|]. destruct (Rlt_dec (Rabs a) tol); [right; tauto|]. left. lra.
Qed.
Lemma neg_inv g : g < 0 -> 1 / g < 0.
Proof. intros H. unfold Rdiv. rewrite Rmult_1_l. now apply Rinv_lt_0_compat. Qed.
Lemma pow0_neg h : h < 0 -> ext_pow (Fin 0) (Fin h) = PInf.
Proof. intros H. cbn [ext_pow]. rewrite Reqb_f by lra. rewrite Rltb_f by lra. rewrite Reqb_t by reflexivity. now rewrite Rltb_f by lra. Qed.
Lemma usable_neg g a : usable g a -> g < 0 -> g <= - tol.
Proof. intros (H & _) G. rewrite Rabs_left in H by exact G. lra. Qed.
Lemma usable_pos g a : usable g a -> 0 < g -> tol <= g.
Proof. intros (H & _) G. rewrite Rabs_right in H by lra. lra. Qed.
Lemma usable_nz g a : usable g a -> g <> 0 /\ a <> 0.
Proof. intros (H & K). split; now apply abs_nz. Qed.

Lemma type2r_steady g a b x :
  steady (-2) [g; a; b] x <-> (x = 0 -> usable g a -> (0 < g -> 0 <= b / a) /\ (g < 0 -> a < 0)).
Proof.
  pose proof tol_pos as T. destruct (usable_dec g a) as [U|U].
  2:{ split; [intros _ _ (H1 & H2); lra|]. intros _. apply (steady_whole _ _ (fun _ => 0)); [|apply c_const]. intros u. ev.
      destruct U as [U|U]; rewrite (Rltb_t _ _ U); [|rewrite orb_true_r]; reflexivity. }
  destruct (usable_nz g a U) as (NG & NA). destruct (Rlt_dec 0 g) as [G|G].
  { rewrite type2r_pos by (now apply (usable_pos g a)). destruct U as (U1 & U2). unfold usable. split; intros H X; specialize (H X); [split; [tauto|lra]|]. intros _. tauto. }
  assert (GN : g < 0) by lra. pose proof (neg_inv g GN) as I.
  assert (LOW : forall u, u < 0 -> eval_real (-2) [g; a; b] u = Some (Fin 0)).
  { intros u L. destruct U as (U1 & U2). ev. rewrite !small_abs by assumption. cbn [orb]. rewrite (Rltb_t u) by exact L. ar. now rewrite Rltb_f by lra. }
  set (V := fun u => if Rlt_dec ((above u (1 / g) - b) / a) 0 then 0 else (above u (1 / g) - b) / a).
  assert (HIGH : forall u, 0 < u -> eval_real (-2) [g; a; b] u = Some (Fin (V u))).
  { intros u P. destruct U as (U1 & U2). ev. rewrite !small_abs by assumption. cbn [orb]. rewrite (Rltb_f u) by lra.
    rewrite (div_fin 1) by exact NG. rewrite pow_fin by lra. ar. rewrite div_fin by exact NA. ar. unfold V. rewrite above_power by lra.
    destruct (Rlt_dec ((power u (1 / g) - b) / a) 0) as [Q|Q]; [now rewrite Rltb_t|now rewrite Rltb_f by lra]. }
  assert (CV : forall u, 0 < u -> cont V u).
  { intros u P. apply (c_max0 (fun u => (above u (1 / g) - b) / a)). apply c_div; [|apply c_const|exact NA]. apply c_minus; [|apply c_const].
    apply (cont_near (fun u => Rpower u (1 / g)) _ _ u); [exact P| |now apply c_Rpower]. intros v Q. rewrite above_pos by lra. reflexivity. }
  destruct (Rtotal_order x 0) as [L|[->|L]].
  - split; [lra|]. intros _. apply (smooth _ _ _ (- x) (fun _ => 0)); [lra| |apply c_const]. intros u P. apply LOW. lra.
  - destruct (Rlt_dec a 0) as [A|A].
    + split; [intros _ _ _; split; lra|]. intros _.
      apply (smooth _ _ _ (Rpower (Rabs b + 1) (1 / (1 / g))) (fun _ => 0)); [apply Rpower_pos| |apply c_const].
      intros u P. destruct (Rtotal_order u 0) as [L|[->|L]].
      * now apply LOW.
      * destruct U as (U1 & U2). ev. rewrite !small_abs by assumption. cbn [orb]. rewrite (Rltb_f 0) by lra. rewrite (div_fin 1) by exact NG.
        rewrite pow0_neg by exact I. cbn [ext_sub ext_add ext_neg ext_div]. rewrite (Rltb_t a) by exact A. reflexivity.
      * rewrite HIGH by exact L. unfold V. rewrite above_pos by exact L.
        assert (H : Rabs b + 1 <= Rpower u (1 / g)) by (apply Rpower_large; [exact I|pose proof (Rabs_pos b); lra|lra]).
        pose proof (Rle_abs b). destruct (Rlt_dec ((Rpower u (1 / g) - b) / a) 0) as [Q|Q]; [reflexivity|]. exfalso. apply Q.
        replace ((Rpower u (1 / g) - b) / a) with (- ((Rpower u (1 / g) - b) * / - a)) by (field; lra).
        assert (0 < (Rpower u (1 / g) - b) * / - a) by (apply Rmult_lt_0_compat; [lra|apply Rinv_0_lt_compat; lra]). lra.
    + split; [|intros H; destruct (H eq_refl U); lra]. intros S. exfalso. revert S. apply not_number. intros y.
      destruct U as (U1 & U2). ev. rewrite !small_abs by assumption. cbn [orb]. rewrite (Rltb_f 0) by lra. rewrite (div_fin 1) by exact NG.
      rewrite pow0_neg by exact I. cbn [ext_sub ext_add ext_neg ext_div]. rewrite (Rltb_f a) by lra. cbn. discriminate.
  - split; [lra|]. intros _. apply (smooth _ _ _ x V); [lra| |now apply CV]. intros u P. apply HIGH. lra.
Qed.

Lemma inv0 : ext_div (Fin 1) (Fin 0) = PInf.
Proof. cbn [ext_div]. rewrite Reqb_t by reflexivity. rewrite Reqb_f by lra. unfold inf_of. now rewrite Rltb_f by lra. Qed.
Lemma pow_inf u : 0 <= u -> ext_pow (Fin u) PInf = if Req_EM_T u 1 then Fin 1 else if Rlt_dec u 1 then Fin 0 else PInf.
Proof.
  intros U. cbn [ext_pow]. rewrite Rabs_right by lra. unfold Reqb, Rltb. destruct (Req_EM_T u 1); [reflexivity|]. destruct (Rlt_dec u 1); reflexivity.
Qed.
Lemma c_root_away g a b c x : a <> 0 -> c < x -> cont (fun u => (above (u - c) (1 / g) - b) / a) x.
Proof.
  intros A L. apply c_div; [|apply c_const|exact A]. apply c_minus; [|apply c_const].
  apply (c_comp (fun u => u - c) (fun v => above v (1 / g))); [apply c_minus; [apply c_id|apply c_const]|].
  apply (cont_near (fun v => Rpower v (1 / g)) _ _ (x - c)); [lra| |apply c_Rpower; lra]. intros v V. rewrite above_pos by lra. reflexivity.
Qed.
Lemma root_far h a b c dl : h < 0 -> a <> 0 -> 0 < dl -> exists u, c < u < c + dl /\ 1 <= Rabs ((Rpower (u - c) h - b) / a).
Proof.
  intros H A D. set (K := Rabs b + Rabs a). pose proof (Rabs_pos b). pose proof (Rabs_pos_lt a A) as PA.
  set (v := Rmin (dl / 2) (Rpower K (1 / h))). assert (V : 0 < v) by (apply Rmin_pos; [lra|apply Rpower_pos]).
  pose proof (Rmin_l (dl / 2) (Rpower K (1 / h))) as V1. pose proof (Rmin_r (dl / 2) (Rpower K (1 / h))) as V2. fold v in V1, V2.
  exists (c + v). split; [lra|]. replace (c + v - c) with v by ring.
  assert (L : K <= Rpower v h) by (apply Rpower_large; [exact H|unfold K; lra|lra]).
  unfold Rdiv. rewrite Rabs_mult, Rabs_inv. pose proof (Rle_abs b). unfold K in L. rewrite (Rabs_right (Rpower v h - b)) by lra.
  apply Rmult_le_reg_r with (Rabs a); [exact PA|]. rewrite Rmult_assoc, Rinv_l by lra. lra.
Qed.

(** Types -3 and -6 differ only at c and below. *)
Section Root36.
Context (t : Z) (g a b c : R) (low at_c : R).
Context (NA : a <> 0).
Context (LOW : forall u, u < c -> eval_real t [g; a; b; c] u = Some (Fin low)).
Context (HIGH : forall u, c < u -> eval_real t [g; a; b; c] u =
  Some (ext_div (ext_sub (ext_pow (Fin (u - c)) (ext_div (Fin 1) (Fin g))) (Fin b)) (Fin a))).
Context (LB : low = - b / a \/ low = 0).
Context (ATC : (eval_real t [g; a; b; c] c = Some (Fin 0)) \/
  (low = 0 /\ eval_real t [g; a; b; c] c = Some (ext_div (ext_sub (ext_pow (Fin 0) (ext_div (Fin 1) (Fin g))) (Fin b)) (Fin a)))).

Lemma root36_neg x : g < 0 -> (steady t [g; a; b; c] x <-> x <> c).
Proof.
  intros G. pose proof (neg_inv g G) as I.
  assert (H : forall u, c < u -> eval_real t [g; a; b; c] u = Some (Fin ((above (u - c) (1 / g) - b) / a))).
  { intros u U. rewrite HIGH by exact U. rewrite (div_fin 1) by lra. rewrite pow_fin by lra. ar. rewrite div_fin by exact NA. now rewrite above_power by lra. }
  destruct (Rtotal_order x c) as [L|[->|L]].
  - split; [lra|]. intros _. apply (smooth _ _ _ (c - x) (fun _ => low)); [lra| |apply c_const]. intros u U. apply LOW. lra.
  - split; [|congruence]. intros S. exfalso. revert S. destruct ATC as [V|(_ & V)].
    + apply (not_steady _ _ _ 0 1 V); [lra|]. intros dl D. destruct (root_far (1 / g) a b c dl I NA D) as (u & U & F). exists u. split; [lra|].
      intros y Y. rewrite H in Y by lra. injection Y as <-. rewrite above_pos by lra. now rewrite Rminus_0_r.
    + apply not_number. intros y. rewrite V. rewrite (div_fin 1) by lra. rewrite pow0_neg by exact I.
      cbn [ext_sub ext_add ext_neg ext_div]. destruct (Rltb a 0); discriminate.
  - split; [lra|]. intros _. apply (smooth _ _ _ (x - c) (fun u => (above (u - c) (1 / g) - b) / a)); [lra| |now apply c_root_away].
    intros u U. apply H. lra.
Qed.
Lemma root36_zero x : g = 0 -> (steady t [g; a; b; c] x <-> (x = c -> b = 0) /\ x < c + 1).
Proof.
  intros ->. rewrite inv0 in *.
  assert (H : forall u, c < u < c + 1 -> eval_real t [0; a; b; c] u = Some (Fin (- b / a))).
  { intros u U. rewrite HIGH by lra. rewrite pow_inf by lra. destruct (Req_EM_T (u - c) 1); [lra|]. destruct (Rlt_dec (u - c) 1); [|lra].
    ar. rewrite div_fin by exact NA. do 2 f_equal. now field. }
  assert (OFF : forall u y, c + 1 < u -> eval_real t [0; a; b; c] u <> Some (Fin y)).
  { intros u y U. rewrite HIGH by lra. rewrite pow_inf by lra. destruct (Req_EM_T (u - c) 1); [lra|]. destruct (Rlt_dec (u - c) 1); [lra|].
    cbn [ext_sub ext_add ext_neg ext_div]. destruct (Rltb a 0); discriminate. }
  assert (B0 : - b / a = 0 <-> b = 0).
  { split; [|intros ->; now field]. intros E. replace b with (- (- b / a * a)) by (now field). rewrite E. ring. }
  destruct (Rtotal_order x c) as [L|[->|L]].
  - split; [intros _; split; lra|]. intros _. apply (smooth _ _ _ (c - x) (fun _ => low)); [lra| |apply c_const]. intros u U. apply LOW. lra.
  - destruct ATC as [V|(L0 & V)].
    + rewrite (glue3 _ _ c 1 0 (fun _ => - b / a) (fun _ => low)); [|lra|exact V|intros u U; apply H; lra|intros u U; apply LOW; lra|apply c_const|apply c_const].
      split.
      * intros (E & _). split; [intros _; now apply B0|lra].
      * intros (E & _). specialize (E eq_refl). apply B0 in E. destruct LB; lra.
    + rewrite pow_inf in V by lra. destruct (Req_EM_T 0 1); [lra|]. destruct (Rlt_dec 0 1); [|lra].
      rewrite sub_fin, div_fin in V by exact NA. replace ((0 - b) / a) with (- b / a) in V by (now field).
      rewrite (glue3 _ _ c 1 (- b / a) (fun _ => - b / a) (fun _ => low)); [|lra|exact V|intros u U; apply H; lra|intros u U; apply LOW; lra|apply c_const|apply c_const].
      split.
      * intros (_ & E). split; [intros _; apply B0; lra|lra].
      * intros (E & _). specialize (E eq_refl). apply B0 in E. lra.
  - destruct (Rlt_dec x (c + 1)) as [X|X].
    + split; [intros _; split; lra|]. intros _. apply (smooth _ _ _ (Rmin (x - c) (c + 1 - x)) (fun _ => - b / a)); [apply Rmin_pos; lra| |apply c_const].
      intros u U. pose proof (Rmin_l (x - c) (c + 1 - x)). pose proof (Rmin_r (x - c) (c + 1 - x)). apply H. lra.
    + split; [|lra]. intros S. exfalso. destruct S as (y & Y & K). destruct (K 1 ltac:(lra)) as (dl & D & K1).
      destruct (K1 (x + dl / 2) ltac:(lra)) as (y' & Y' & _). revert Y'. apply OFF. lra.
Qed.
End Root36.

Lemma type3r_steady g a b c x :
  steady (-3) [g; a; b; c] x <-> (tol <= Rabs a -> (x = c -> b = 0 /\ 0 <= g) /\ (g = 0 -> x < c + 1)).
Proof.
  destruct (Rlt_dec (Rabs a) tol) as [S|S].
  { split; [intros _ H; lra|]. intros _. apply (steady_whole _ _ (fun _ => 0)); [|apply c_const]. intros u. ev.
    now rewrite (Rltb_t (Rabs a)) by exact S. }
  assert (A : tol <= Rabs a) by lra. pose proof (abs_nz a A) as NA.
  assert (LOW : forall u, u < c -> eval_real (-3) [g; a; b; c] u = Some (Fin (- b / a))).
  { intros u U. ev. rewrite !small_abs by lra. rewrite (Rltb_t u) by exact U. cbn [negb]. now rewrite div_fin by exact NA. }
  assert (HIGH : forall u, c < u -> eval_real (-3) [g; a; b; c] u =
    Some (ext_div (ext_sub (ext_pow (Fin (u - c)) (ext_div (Fin 1) (Fin g))) (Fin b)) (Fin a))).
  { intros u U. ev. rewrite !small_abs by lra. rewrite (Rltb_f u) by lra. cbn [negb]. now rewrite Rltb_t by lra. }
  assert (ATC : eval_real (-3) [g; a; b; c] c = Some (Fin 0)).
  { ev. rewrite !small_abs by lra. rewrite (Rltb_f c) by lra. cbn [negb]. now rewrite Rltb_f by lra. }
  destruct (Rtotal_order g 0) as [G|[G|G]].
  - rewrite (root36_neg (-3) g a b c (- b / a)) by auto. split; [intros X _; split; lra|]. intros H X. destruct (H A) as (H1 & _). destruct (H1 X). lra.
  - rewrite (root36_zero (-3) g a b c (- b / a)) by auto. split.
    + intros (X & L) _. split; [intros E; split; [now apply X|lra]|tauto].
    + intros H. destruct (H A) as (H1 & H2). split; [intros E; now apply H1|tauto].
  - rewrite type3r_pos by exact G. split.
    + intros H _. split; [intros X; split; [now apply H|lra]|lra].
    + intros H X _. destruct (H A) as (H1 & _). now apply H1.
Qed.
Lemma type6r_steady g a b c x :
  steady (-6) [g; a; b; c] x <-> (tol <= Rabs a -> (x = c -> b = 0 /\ 0 <= g) /\ (g = 0 -> x < c + 1)).
Proof.
  destruct (Rlt_dec (Rabs a) tol) as [S|S].
  { split; [intros _ H; lra|]. intros _. apply (steady_whole _ _ (fun _ => 0)); [|apply c_const]. intros u. ev.
    now rewrite (Rltb_t (Rabs a)) by exact S. }
  assert (A : tol <= Rabs a) by lra. pose proof (abs_nz a A) as NA.
  assert (LOW : forall u, u < c -> eval_real (-6) [g; a; b; c] u = Some (Fin 0)).
  { intros u U. ev. rewrite !small_abs by lra. now rewrite Rltb_t by lra. }
  assert (HIGH : forall u, c <= u -> eval_real (-6) [g; a; b; c] u =
    Some (ext_div (ext_sub (ext_pow (Fin (u - c)) (ext_div (Fin 1) (Fin g))) (Fin b)) (Fin a))).
  { intros u U. ev. rewrite !small_abs by lra. now rewrite Rltb_f by lra. }
  assert (ATC : eval_real (-6) [g; a; b; c] c = Some (ext_div (ext_sub (ext_pow (Fin 0) (ext_div (Fin 1) (Fin g))) (Fin b)) (Fin a))).
  { rewrite HIGH by lra. now replace (c - c) with 0 by ring. }
  assert (HIGH' : forall u, c < u -> eval_real (-6) [g; a; b; c] u =
    Some (ext_div (ext_sub (ext_pow (Fin (u - c)) (ext_div (Fin 1) (Fin g))) (Fin b)) (Fin a))) by (intros u U; apply HIGH; lra).
  destruct (Rtotal_order g 0) as [G|[G|G]].
  - rewrite (root36_neg (-6) g a b c 0) by auto. split; [intros X _; split; lra|]. intros H X. destruct (H A) as (H1 & _). destruct (H1 X). lra.
  - rewrite (root36_zero (-6) g a b c 0) by auto. split.
    + intros (X & L) _. split; [intros E; split; [now apply X|lra]|tauto].
    + intros H. destruct (H A) as (H1 & H2). split; [intros E; now apply H1|tauto].
  - rewrite type6r_pos by exact G. split.
    + intros H _. split; [intros X; split; [now apply H|lra]|lra].
    + intros H X _. destruct (H A) as (H1 & _). now apply H1.
Qed.
Lemma above_undo u g : 0 < g -> above (above u g) (1 / g) = Rmax 0 u.
Proof.
  intros G. destruct (Rlt_dec 0 u) as [P|P].
  - rewrite (above_pos u) by exact P. rewrite above_pos by apply Rpower_pos. rewrite Rpower_mult.
    replace (g * (1 / g)) with 1 by (field; lra). rewrite Rpower_1 by exact P. now rewrite Rmax_right by lra.
  - rewrite (above_neg u) by lra. rewrite above_neg by lra. now rewrite Rmax_left by lra.
Qed.

(** The power part of types -4 and -5, shifted by e. *)
Lemma c_line_undone c f x : cont (line_undone c f) x.
Proof.
  unfold line_undone. destruct (Rlt_dec (Rabs c) tol) as [C|C]; [apply c_const|].
  apply c_div; [apply c_minus; [apply c_id|apply c_const]|apply c_const|apply abs_nz; lra].
Qed.
Definition root (g a b y : R) : R := if Rlt_dec (Rabs g) tol then 0 else if Rlt_dec (Rabs a) tol then 0 else (above y (1 / g) - b) / a.
Lemma undone_root g a b y : 0 <= y -> undone g a b y = root g a b y.
Proof. intros Y. unfold undone, root. destruct (Rlt_dec y 0); [lra|reflexivity]. Qed.
Lemma c_root_any g a b e x : (usable g a -> 0 < g \/ e < x) -> cont (fun u => root g a b (u - e)) x.
Proof.
  intros H. unfold root. destruct (Rlt_dec (Rabs g) tol) as [G|G]; [apply c_const|]. destruct (Rlt_dec (Rabs a) tol) as [A|A]; [apply c_const|].
  assert (NA : a <> 0) by (apply abs_nz; lra). destruct H as [P|P]; [unfold usable; lra| |].
  - now apply c_root_shift.
  - now apply c_root_away.
Qed.
Lemma root_value g a b y : 0 <= y -> (usable g a -> 0 < g \/ 0 < y) ->
  (if Rltb (Rabs g) tol || Rltb (Rabs a) tol then Fin 0
   else ext_div (ext_sub (ext_pow (Fin y) (ext_div (Fin 1) (Fin g))) (Fin b)) (Fin a)) = Fin (root g a b y).
Proof.
  intros Y H. unfold root. destruct (Rlt_dec (Rabs g) tol) as [G|G]; [now rewrite Rltb_t|]. rewrite (Rltb_f (Rabs g)) by lra.
  destruct (Rlt_dec (Rabs a) tol) as [A|A]; [now rewrite Rltb_t|]. rewrite Rltb_f by lra. cbn [orb].
  assert (NA : a <> 0) by (apply abs_nz; lra). assert (NG : g <> 0) by (apply abs_nz; lra). rewrite (div_fin 1) by exact NG.
  assert (E : ext_pow (Fin y) (Fin (1 / g)) = Fin (power y (1 / g))).
  { destruct H as [P|P]; [unfold usable; lra| |now apply pow_fin]. apply pow_fin0; [exact Y|]. apply Rdiv_lt_0_compat; lra. }
  rewrite E. ar. rewrite div_fin by exact NA. now rewrite above_power.
Qed.
Lemma root_blows g a b : usable g a -> g < 0 ->
  exists s, (if Rltb (Rabs g) tol || Rltb (Rabs a) tol then Fin 0
   else ext_div (ext_sub (ext_pow (Fin 0) (ext_div (Fin 1) (Fin g))) (Fin b)) (Fin a)) = s /\ forall y, s <> Fin y.
Proof.
  intros (U1 & U2) G. rewrite !small_abs by assumption. cbn [orb]. rewrite (div_fin 1) by lra. rewrite pow0_neg by (now apply neg_inv).
  cbn [ext_sub ext_add ext_neg ext_div]. eexists. split; [reflexivity|]. intros y. destruct (Rltb a 0); discriminate.
Qed.

Lemma type4r_low g a b c d x : a * d + b = 0 -> g < 0 -> steady (-4) [g; a; b; c; d] x.
Proof.
  intros Z G. apply (steady_whole _ _ (line_undone c 0)); [|apply c_line_undone]. intros u. ev. rewrite Z.
  rewrite (Rltb_f 0) by lra. rewrite pow0_neg by exact G. cbn [ext_ge ext_lt negb]. unfold line_undone.
  destruct (Rlt_dec (Rabs c) tol) as [C|C]; [now rewrite Rltb_t|]. rewrite Rltb_f by lra. rewrite div_fin by (apply abs_nz; lra).
  now rewrite Rminus_0_r.
Qed.
Lemma type4r_steady g a b c d x D : ~ (a * d + b = 0 /\ g < 0) ->
  D = (if Req_EM_T (a * d + b) 0 then if Req_EM_T g 0 then 1 else 0 else above (a * d + b) g) ->
  (steady (-4) [g; a; b; c; d] x <->
   (x = D -> line_undone c 0 D = undone g a b D /\ (usable g a -> g < 0 -> 0 < D))).
Proof.
  intros NZ DE. pose proof tol_pos as T.
  assert (D0 : 0 <= D).
  { rewrite DE. destruct (Req_EM_T (a * d + b) 0); [destruct (Req_EM_T g 0); lra|apply above_ge0]. }
  assert (DISC : (if Rltb (a * d + b) 0 then Fin 0 else ext_pow (Fin (a * d + b)) (Fin g)) = Fin D).
  { rewrite DE. destruct (Req_EM_T (a * d + b) 0) as [Z|Z].
    - rewrite Z. rewrite Rltb_f by lra. destruct (Req_EM_T g 0) as [->|G]; [cbn [ext_pow]; now rewrite Reqb_t|].
      rewrite pow_fin0 by lra. now rewrite power_0.
    - destruct (Rlt_dec (a * d + b) 0) as [P|P].
      + rewrite Rltb_t by exact P. now rewrite above_neg by lra.
      + rewrite Rltb_f by lra. rewrite pow_fin by lra. now rewrite above_power by lra. }
  clear DE. assert (LOW : forall u, u < D -> eval_real (-4) [g; a; b; c; d] u = Some (Fin (line_undone c 0 u))).
  { intros u U. ev. rewrite DISC. ar. rewrite (Rltb_t u) by exact U. cbn [negb]. unfold line_undone.
    destruct (Rlt_dec (Rabs c) tol) as [C|C]; [now rewrite Rltb_t|]. rewrite Rltb_f by lra. rewrite div_fin by (apply abs_nz; lra). now rewrite Rminus_0_r. }
  assert (HIGH : forall u, D <= u -> eval_real (-4) [g; a; b; c; d] u =
    Some (if Rltb (Rabs g) tol || Rltb (Rabs a) tol then Fin 0
     else ext_div (ext_sub (ext_pow (Fin u) (ext_div (Fin 1) (Fin g))) (Fin b)) (Fin a))).
  { intros u U. ev. rewrite DISC. ar. rewrite (Rltb_f u) by exact U. reflexivity. }
  assert (HIGH' : forall u, D <= u -> (usable g a -> 0 < g \/ 0 < u) -> eval_real (-4) [g; a; b; c; d] u = Some (Fin (root g a b (u - 0)))).
  { intros u U P. rewrite HIGH by exact U. rewrite root_value by (assumption || lra). now rewrite Rminus_0_r. }
  destruct (Rtotal_order x D) as [L|[->|L]].
  - split; [lra|]. intros _. apply (smooth _ _ _ (D - x) (line_undone c 0)); [lra| |apply c_line_undone]. intros u U. apply LOW. lra.
  - assert (CASES : (usable g a /\ g < 0 /\ D = 0) \/ (usable g a -> 0 < g \/ 0 < D)).
    { destruct (usable_dec g a) as [U|U]; [|right; unfold usable; lra]. destruct (usable_nz g a U). destruct (Rlt_dec 0 g); [right; tauto|].
      destruct (Rlt_dec 0 D); [right; tauto|]. left. split; [exact U|lra]. }
    destruct CASES as [(U & G & Z)|P].
    + split; [|intros H; destruct (H eq_refl) as (_ & H2); specialize (H2 U G); lra]. intros S. exfalso. revert S. apply not_number. intros y.
      rewrite HIGH by lra. rewrite Z. destruct (root_blows g a b U G) as (s & -> & H). intros E. injection E as E. exact (H y E).
    + rewrite (glue _ _ D 1 (fun u => root g a b (u - 0)) (line_undone c 0)); [|lra| | |apply c_root_any; exact P|apply c_line_undone].
      * rewrite Rminus_0_r, undone_root by exact D0. split; [|intros H; symmetry; now apply H]. intros H _. split; [congruence|].
        intros U G. destruct (P U); lra.
      * intros u U. apply HIGH'; [lra|]. intros W. destruct (P W); [now left|right; lra].
      * intros u U. apply LOW. lra.
  - split; [lra|]. intros _. apply (smooth _ _ _ (x - D) (fun u => root g a b (u - 0))); [lra| |apply c_root_any; intros; right; lra].
    intros u U. apply HIGH'; [lra|]. intros _. right. lra.
Qed.
Lemma type5r_steady g a b c d e f x :
  steady (-5) [g; a; b; c; d; e; f] x <->
   (x = c * d + f -> line_undone c f x = undone g a b (x - e)) /\
   (c * d + f <= x -> x = e -> usable g a -> 0 < g /\ (c * d + f < e -> b = 0)).
Proof.
  pose proof tol_pos as T. set (D := c * d + f).
  assert (LOW : forall u, u < D -> eval_real (-5) [g; a; b; c; d; e; f] u = Some (Fin (line_undone c f u))).
  { intros u U. ev. fold D. rewrite (Rltb_t u) by exact U. cbn [negb]. unfold line_undone.
    destruct (Rlt_dec (Rabs c) tol) as [C|C]; [now rewrite Rltb_t|]. rewrite Rltb_f by lra. now rewrite div_fin by (apply abs_nz; lra). }
  assert (MID : forall u, D <= u < e -> eval_real (-5) [g; a; b; c; d; e; f] u = Some (Fin 0)).
  { intros u U. ev. fold D. rewrite (Rltb_f u) by lra. cbn [negb]. now rewrite Rltb_t by lra. }
  assert (HIGH : forall u, D <= u -> e <= u -> eval_real (-5) [g; a; b; c; d; e; f] u =
    Some (if Rltb (Rabs g) tol || Rltb (Rabs a) tol then Fin 0
     else ext_div (ext_sub (ext_pow (Fin (u - e)) (ext_div (Fin 1) (Fin g))) (Fin b)) (Fin a))).
  { intros u U1 U2. ev. fold D. rewrite (Rltb_f u) by lra. cbn [negb]. now rewrite Rltb_f by lra. }
  assert (HIGH' : forall u, D <= u -> e <= u -> (usable g a -> 0 < g \/ e < u) ->
    eval_real (-5) [g; a; b; c; d; e; f] u = Some (Fin (root g a b (u - e)))).
  { intros u U1 U2 P. rewrite HIGH by assumption. rewrite root_value; [reflexivity|lra|]. intros U. destruct (P U); [now left|right; lra]. }
  assert (BLOWS : D <= e -> usable g a -> g < 0 -> ~ steady (-5) [g; a; b; c; d; e; f] e).
  { intros L U G. apply not_number. intros y. rewrite HIGH by lra. replace (e - e) with 0 by ring.
    destruct (root_blows g a b U G) as (s & -> & H). intros E. injection E as E. exact (H y E). }
  assert (CASES : (usable g a /\ g < 0) \/ (usable g a -> 0 < g)).
  { destruct (usable_dec g a) as [U|U]; [|right; unfold usable; lra]. destruct (usable_nz g a U). destruct (Rlt_dec 0 g); [right; tauto|left; split; [exact U|lra]]. }
  destruct (Rtotal_order x D) as [L|[->|L]].
  - split; [intros _; split; lra|]. intros _. apply (smooth _ _ _ (D - x) (line_undone c f)); [lra| |apply c_line_undone]. intros u U. apply LOW. lra.
  - destruct (Rtotal_order D e) as [DE|[DE|DE]].
    + rewrite (glue _ _ D (e - D) (fun _ => 0) (line_undone c f)); [|lra| | |apply c_const|apply c_line_undone].
      * unfold undone. destruct (Rlt_dec (D - e) 0) as [K|K]; [|lra]. split; [|intros (H & _); symmetry; now apply H]. intros H. split; [intros _; congruence|lra].
      * intros u U. apply MID. lra.
      * intros u U. apply LOW. lra.
    + destruct CASES as [(U & G)|P].
      * split; [|intros (_ & H); destruct (H ltac:(lra) DE U); lra]. intros S. exfalso. rewrite DE in S. revert S. apply BLOWS; (assumption || lra).
      * rewrite (glue _ _ D 1 (fun u => root g a b (u - e)) (line_undone c f)); [|lra| | |apply c_root_any; intros U; left; now apply P|apply c_line_undone].
        -- rewrite undone_root by lra. split; [|intros (H & _); symmetry; now apply H]. intros H. split; [intros _; congruence|].
           intros _ _ U. split; [now apply P|lra].
        -- intros u U. apply HIGH'; try lra. intros W. left. now apply P.
        -- intros u U. apply LOW. lra.
    + rewrite (glue _ _ D 1 (fun u => root g a b (u - e)) (line_undone c f)); [|lra| | |apply c_root_any; intros U; right; exact DE|apply c_line_undone].
      * rewrite undone_root by lra. split; [|intros (H & _); symmetry; now apply H]. intros H. split; [intros _; congruence|lra].
      * intros u U. apply HIGH'; lra.
      * intros u U. apply LOW. lra.
  - destruct (Rtotal_order x e) as [E|[->|E]].
    + split; [intros _; split; lra|]. intros _. apply (smooth _ _ _ (Rmin (x - D) (e - x)) (fun _ => 0)); [apply Rmin_pos; lra| |apply c_const].
      intros u U. pose proof (Rmin_l (x - D) (e - x)). pose proof (Rmin_r (x - D) (e - x)). apply MID. lra.
    + destruct CASES as [(U & G)|P].
      * split; [|intros (_ & H); destruct (H ltac:(lra) eq_refl U); lra]. intros S. exfalso. revert S. apply BLOWS; (assumption || lra).
      * rewrite (glue _ _ e (e - D) (fun u => root g a b (u - e)) (fun _ => 0)); [|lra| | |apply c_root_any; intros U; left; now apply P|apply c_const].
        -- replace (e - e) with 0 by ring. destruct (usable_dec g a) as [U|U].
           ++ destruct (usable_nz g a U) as (_ & NA). unfold root. destruct U as (U1 & U2).
              destruct (Rlt_dec (Rabs g) tol); [lra|]. destruct (Rlt_dec (Rabs a) tol); [lra|]. rewrite above_neg by lra. rewrite Rminus_0_l. split.
              ** intros H. split; [lra|]. intros _ _ U. split; [now apply P|]. intros _. replace b with (- (- b / a * a)) by (now field). rewrite H. ring.
              ** intros (_ & H). destruct (H ltac:(lra) eq_refl (conj U1 U2)) as (_ & H2). rewrite (H2 L). now field.
           ++ split; [intros _; split; [lra|unfold usable; lra]|]. intros _. unfold root.
              destruct (Rlt_dec (Rabs g) tol); [reflexivity|]. destruct (Rlt_dec (Rabs a) tol); [reflexivity|lra].
        -- intros u U. apply HIGH'; try lra. intros W. left. now apply P.
        -- intros u U. apply MID. lra.
    + split; [intros _; split; lra|]. intros _. apply (smooth _ _ _ (Rmin (x - D) (x - e)) (fun u => root g a b (u - e))); [apply Rmin_pos; lra| |apply c_root_any; intros; right; lra].
      intros u U. pose proof (Rmin_l (x - D) (x - e)). pose proof (Rmin_r (x - D) (x - e)). apply HIGH'; lra.
Qed.
Lemma type7r_steady g a b c d x : tol <= g -> tol <= a -> tol <= b -> c < Rpower 10 ((x - d) / a) -> steady (-7) [g; a; b; c; d] x.
Proof.
  intros G A B P. pose proof tol_pos as T. set (N := fun u => (Rpower 10 ((u - d) / a) - c) / b).
  assert (CN : forall u, cont N u).
  { intros u. apply c_div; [|apply c_const|lra]. apply c_minus; [|apply c_const].
    apply (c_comp (fun u => (u - d) / a) (fun v => Rpower 10 v)); [|apply c_Rpower_exponent].
    apply c_div; [apply c_minus; [apply c_id|apply c_const]|apply c_const|lra]. }
  assert (NP : 0 < N x) by (apply Rdiv_lt_0_compat; lra).
  destruct (near_pos N x (CN x) NP) as (dl & D & K).
  apply (smooth _ _ _ dl (fun u => Rpower (N u) (1 / g))); [exact D| |].
  - intros u U. specialize (K u U). ev. rewrite !Rltb_f by assumption. cbn [orb]. rewrite (div_fin (u - d)) by lra.
    rewrite pow_fin by lra. ar. rewrite div_fin by lra. rewrite power_pos by lra. fold (N u). rewrite div_fin by lra.
    rewrite pow_fin by exact K. now rewrite power_pos by exact K.
  - apply (c_comp N (fun v => Rpower v (1 / g))); [apply CN|now apply c_Rpower].
Qed.
Lemma type8r_steady a b c d e x : tol <= a -> 0 < b -> b <> 1 -> tol <= Rabs c ->
  (steady (-8) [a; b; c; d; e] x <-> x <> e).
Proof.
  intros A B B1 C. pose proof tol_pos as T. pose proof (abs_nz c C) as NC. pose proof (log_nz b B B1) as LB.
  destruct (Rtotal_order x e) as [L|[->|L]].
  - split; [lra|]. intros _. apply (smooth _ _ _ (e - x) (fun _ => 0)); [lra| |apply c_const]. intros u U. ev. now rewrite Rltb_t by lra.
  - split; [|congruence]. intros S. exfalso. revert S. apply not_number. intros y. ev. rewrite Rltb_f by lra.
    rewrite !small_abs by (first [now apply abs_ge_pos|assumption]). cbn [orb]. rewrite div_fin by lra.
    replace ((e - e) / a) with 0 by (field; lra). rewrite (log_fin b) by exact B.
    unfold ext_log10 at 1. rewrite Rltb_f by lra. rewrite Reqb_t by reflexivity. unfold ext_div at 2.
    destruct (Rltb (log_10 b) 0); cbn [ext_neg ext_sub ext_add ext_div]; destruct (Rltb c 0); cbn [ext_neg]; discriminate.
  - split; [lra|]. intros _. apply (smooth _ _ _ (x - e) (fun u => (log_10 ((u - e) / a) / log_10 b - d) / c)); [lra| |].
    + intros u U. assert (P : 0 < (u - e) / a) by (apply Rdiv_lt_0_compat; lra). ev. rewrite Rltb_f by lra.
      rewrite !small_abs by (first [now apply abs_ge_pos|assumption]). cbn [orb]. rewrite (div_fin (u - e)) by lra.
      rewrite !log_fin by assumption. rewrite (div_fin _ (log_10 b)) by exact LB. ar. now rewrite div_fin by exact NC.
    + apply c_div; [|apply c_const|exact NC]. apply c_minus; [|apply c_const]. apply c_div; [|apply c_const|exact LB].
      apply (c_log (fun u => (u - e) / a)); [|apply Rdiv_lt_0_compat; lra].
      apply c_div; [apply c_minus; [apply c_id|apply c_const]|apply c_const|lra].
Qed.
Lemma type108r_steady g x : 0 < g -> 0 < x < 1 -> steady (-108) [g] x.
Proof.
  intros G X.
  apply (smooth _ _ _ (Rmin x (1 - x)) (fun u => 1 - above (1 - above u g) g)); [apply Rmin_pos; lra| |].
  - intros u U. pose proof (Rmin_l x (1 - x)). pose proof (Rmin_r x (1 - x)). pose proof (power_unit u g ltac:(lra) G).
    ev. rewrite pow_fin by lra. ar. rewrite pow_fin0 by lra. ar. rewrite (above_power u) by lra. now rewrite above_power by lra.
  - apply c_minus; [apply c_const|]. apply (c_comp (fun u => 1 - above u g) (fun v => above v g)); [|now apply c_above].
    apply c_minus; [apply c_const|now apply c_above].
Qed.

Lemma logistic_bound k : - / 2 < logistic k 1 < / 2.
Proof.
  unfold logistic. pose proof (exp_pos (- k * 1)) as P. set (q := exp (- k * 1)) in *. clearbody q.
  assert (0 < 1 / (1 + q)) by (apply Rdiv_lt_0_compat; lra).
  assert (1 / (1 + q) < 1) by (apply Rmult_lt_reg_r with (1 + q); [lra|]; replace (1 / (1 + q) * (1 + q)) with 1 by (field; lra); lra).
  lra.
Qed.
Lemma type109r_steady k x : k <> 0 -> 0 <= x <= 1 -> steady (-109) [k] x.
Proof.
  intros K X. pose proof (logistic_1_nz k K) as L. pose proof (logistic_bound k) as LB.
  set (N := fun u => (2 * u - 1) * logistic k 1 + / 2).
  assert (CN : forall u, cont N u).
  { intros u. apply c_plus; [|apply c_const]. apply c_mult; [|apply c_const].
    apply c_minus; [apply c_mult; [apply c_const|apply c_id]|apply c_const]. }
  assert (NB : 0 < N x < 1).
  { unfold N. set (l := logistic k 1) in *. clearbody l. assert (H : Rabs (2 * x - 1) <= 1) by (apply Rabs_le; lra).
    assert (H2 : Rabs l < / 2) by (apply Rabs_def1; lra).
    assert (H3 : Rabs ((2 * x - 1) * l) < / 2).
    { rewrite Rabs_mult. pose proof (Rabs_pos l). pose proof (Rabs_pos (2 * x - 1)).
      apply Rle_lt_trans with (1 * Rabs l); [apply Rmult_le_compat_r; lra|lra]. }
    apply Rabs_def2 in H3. lra. }
  destruct (near_pos N x (CN x) ltac:(lra)) as (d1 & D1 & K1).
  destruct (near_pos (fun u => 1 - N u) x) as (d2 & D2 & K2); [apply c_minus; [apply c_const|apply CN]|lra|].
  assert (Q : forall v, 0 < v < 1 -> 0 < 1 / v - 1).
  { intros v V. assert (1 < 1 / v); [|lra]. apply Rmult_lt_reg_r with v; [lra|]. replace (1 / v * v) with 1 by (field; lra). lra. }
  apply (smooth _ _ _ (Rmin d1 d2) (fun u => (- log_10 (1 / N u - 1) / k + 1) / 2)); [apply Rmin_pos; lra| |].
  - intros u U. pose proof (Rmin_l d1 d2). pose proof (Rmin_r d1 d2). specialize (K1 u ltac:(lra)). specialize (K2 u ltac:(lra)).
    ev. unfold inverted_sigmoid_factory, inverted_sigmoid_base.
    cbn [ext_ops f_lit f_neg f_add f_sub f_mul f_div f_exp f_log10]. ar.
    change (f_lit ext_ops L1) with (Fin 1). rewrite base_val. rewrite div_fin by exact L.
    assert (C : / 2 / logistic k 1 <> 0).
    { unfold Rdiv. apply Rmult_integral_contrapositive_currified; [lra|]. now apply Rinv_neq_0_compat. }
    rewrite div_fin by exact C. ar.
    replace ((u - / 2) / (/ 2 / logistic k 1) + / 2) with (N u) by (unfold N; field; exact L).
    rewrite div_fin by lra. ar. rewrite log_fin by (apply Q; lra). ar. rewrite div_fin by exact K. ar. now rewrite div_fin by lra.
  - apply c_div; [|apply c_const|lra]. apply c_plus; [|apply c_const]. apply c_div; [|apply c_const|exact K].
    apply c_opp. apply (c_log (fun u => 1 / N u - 1)); [|apply Q; lra].
    apply c_minus; [|apply c_const]. apply c_div; [apply c_const|apply CN|lra].
Qed.

(** ** Forward and reversed two-part curves *)
Lemma root_of_line a b d : a <> 0 -> 0 <= a * d + b -> (Rmax 0 (a * d + b) - b) / a = d.
Proof. intros A H. rewrite Rmax_right by exact H. now field. Qed.
Lemma type4_both g a b c d : tol <= g -> tol <= Rabs a -> tol <= Rabs c -> 0 <= a * d + b ->
  ((forall x, steady 4 [g; a; b; c; d] x) <-> (forall y, steady (-4) [g; a; b; c; d] y)).
Proof.
  intros G A C H. pose proof tol_pos as T. pose proof (abs_nz a A) as NZ. pose proof (abs_nz c C) as NC.
  assert (DV : above (a * d + b) g = if Req_EM_T (a * d + b) 0 then if Req_EM_T g 0 then 1 else 0 else above (a * d + b) g).
  { destruct (Req_EM_T (a * d + b) 0) as [Z|Z]; [|reflexivity]. destruct (Req_EM_T g 0); [lra|]. rewrite Z. apply above_neg. lra. }
  assert (R : forall y, steady (-4) [g; a; b; c; d] y <-> (y = above (a * d + b) g -> above (a * d + b) g / c = d)).
  { intros y. rewrite (type4r_steady g a b c d y (above (a * d + b) g)) by (assumption || lra).
    rewrite undone_root by apply above_ge0. unfold root, line_undone.
    destruct (Rlt_dec (Rabs g) tol) as [K|_]; [rewrite Rabs_right in K; lra|]. destruct (Rlt_dec (Rabs a) tol); [lra|]. destruct (Rlt_dec (Rabs c) tol); [lra|].
    rewrite above_undo by lra. rewrite root_of_line by assumption. rewrite Rminus_0_r. split; [intros K E; now apply K|intros K E; split; [now apply K|lra]]. }
  split; intros S.
  - intros y. apply R. intros _. specialize (S d). rewrite type4_steady in S. destruct S as (S & _). rewrite <- (S eq_refl). now field.
  - intros x. apply type4_steady. split; [|lra]. intros _.
    specialize (S (above (a * d + b) g)). rewrite R in S. specialize (S eq_refl). rewrite <- S at 1. now field.
Qed.
Lemma type5_both g a b c d e f : tol <= g -> tol <= Rabs a -> tol <= Rabs c -> 0 <= a * d + b ->
  (forall x, steady 5 [g; a; b; c; d; e; f] x) -> forall y, steady (-5) [g; a; b; c; d; e; f] y.
Proof.
  intros G A C H S y. pose proof tol_pos as T. pose proof (abs_nz a A) as NZ. pose proof (abs_nz c C) as NC.
  specialize (S d). rewrite type5_steady in S. destruct S as (S & _). specialize (S eq_refl).
  apply type5r_steady. pose proof (above_ge0 (a * d + b) g) as P. split.
  - intros ->. rewrite undone_root by lra. unfold root, line_undone.
    destruct (Rlt_dec (Rabs g) tol) as [K|_]; [rewrite Rabs_right in K; lra|]. destruct (Rlt_dec (Rabs a) tol); [lra|]. destruct (Rlt_dec (Rabs c) tol); [lra|].
    replace (c * d + f - e) with (above (a * d + b) g) by lra. rewrite above_undo by lra. rewrite root_of_line by assumption. now field.
  - intros L E _. split; [lra|]. intros K. lra.
Qed.

Lemma srgb_jumps : ~ steady 4 [12 / 5; 1000 / 1055; 55 / 1055; 100 / 1292; 4045 / 100000] (4045 / 100000).
Proof.
  rewrite type4_steady. intros (H & _). specialize (H eq_refl). rewrite above_power in H by lra.
  assert (3130806 / 1000000000 <= power (1000 / 1055 * (4045 / 100000) + 55 / 1055) (12 / 5)); [|lra].
  replace (12 / 5) with (INR 12 / INR 5) by (cbn; lra). apply power_root; [lra|lra|lra|lia].
Qed.
