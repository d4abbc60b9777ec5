(** Where the curves of types 7, 8, 108 and 109 are continuous, for all parameters. *)
From Coq Require Import Reals Lra ZArith Lia.
From Verif Require Import M_Base M_Curve M_CurveReal S_Curve S_Curve2 S_Jump P_Curve P_Curve2 P_Formula P_Jump.
Open Scope R_scope.

Lemma some_eq {A} (u v : A) : Some u = Some v -> u = v. Proof. congruence. Qed.
Lemma whole_dec y : {whole y} + {forall n, y <> IZR n}.
Proof.
  destruct (Req_EM_T (IZR (Int_part y)) y) as [E|E]; [left; exists (Int_part y); now symmetry|right]. intros n ->.
  apply E. f_equal. unfold Int_part. rewrite <- (tech_up (IZR n) (n + 1)); [ring| |]; rewrite plus_IZR; lra.
Qed.
Lemma pow_nan u h : u < 0 -> (forall n, h <> IZR n) -> ext_pow (Fin u) (Fin h) = NaN.
Proof.
  intros X N. cbn [ext_pow]. rewrite (Reqb_f h) by (apply (N 0%Z)). rewrite Rltb_f by lra. rewrite Reqb_f by lra.
  unfold is_integer. rewrite Reqb_f; [reflexivity|]. intros E. exact (N _ (eq_sym E)).
Qed.
Lemma pow_of_nan h : h <> 0 -> ext_pow NaN (Fin h) = NaN.
Proof. intros H. cbn [ext_pow]. now rewrite Reqb_f. Qed.
Lemma powerRZ_0_pos n : (0 < n)%Z -> powerRZ 0 n = 0.
Proof. destruct n as [|p|p]; [lia| |lia]. intros _. cbn [powerRZ]. apply pow_i. lia. Qed.
Lemma pow_int u n : u <> 0 \/ (0 <= n)%Z -> ext_pow (Fin u) (Fin (IZR n)) = Fin (powerRZ u n).
Proof.
  intros H. destruct (Z.eq_dec n 0) as [->|N]; [cbn [ext_pow powerRZ]; now rewrite Reqb_t|].
  destruct (Rtotal_order u 0) as [L|[->|L]].
  - now apply pow_negative.
  - assert (P : (0 < n)%Z) by (destruct H; [congruence|lia]). rewrite pow_fin0 by (lra || now apply (IZR_lt 0)). rewrite power_0.
    now rewrite powerRZ_0_pos.
  - rewrite pow_fin by exact L. rewrite power_pos by exact L. now rewrite powerRZ_Rpower.
Qed.
Lemma c_powerRZ n u : u <> 0 \/ (0 <= n)%Z -> cont (fun v => powerRZ v n) u.
Proof.
  assert (P : forall m v, cont (fun v => v ^ m) v) by (intros m v; apply derivable_continuous_pt, derivable_pt_pow).
  intros H. destruct n as [|p|p]; cbn [powerRZ]; [apply c_const|apply P|].
  apply (c_inv (fun v => v ^ Pos.to_nat p)); [apply P|]. apply pow_nonzero. destruct H; [assumption|lia].
Qed.

(** Points beside which the curve leaves the numbers. *)
Lemma strays t ps x : (forall dl, 0 < dl -> exists u, x - dl < u < x + dl /\ forall y, eval_real t ps u <> Some (Fin y)) -> ~ steady t ps x.
Proof.
  intros H (y & _ & K). destruct (K 1 ltac:(lra)) as (dl & D & K1). destruct (H dl D) as (u & U & F). destruct (K1 u U) as (y' & Y & _). exact (F y' Y).
Qed.

(** ** Type -7 *)
Lemma type7r_all g a b c d x :
  steady (-7) [g; a; b; c; d] x <-> (tol <= g -> tol <= a -> tol <= b -> Rpower 10 ((x - d) / a) <= c -> whole (1 / g)).
Proof.
  pose proof tol_pos as T.
  assert (DEC : (tol <= g /\ tol <= a /\ tol <= b) \/ g < tol \/ a < tol \/ b < tol).
  { destruct (Rlt_dec g tol); [tauto|]. destruct (Rlt_dec a tol); [tauto|]. destruct (Rlt_dec b tol); [tauto|]. lra. }
  destruct DEC as [(G & A & B)|C].
  2:{ split; [lra|]. intros _. apply (steady_whole _ _ (fun _ => 0)); [|apply c_const]. intros u. ev.
      destruct C as [C|[C|C]]; rewrite (Rltb_t _ _ C); rewrite ?orb_true_r; reflexivity. }
  destruct (Rlt_dec c (Rpower 10 ((x - d) / a))) as [P|P].
  { split; [lra|]. intros _. now apply type7r_steady. }
  set (N := fun u => (Rpower 10 ((u - d) / a) - c) / b).
  assert (CN : forall u, cont N u).
  { intros u. apply c_div; [|apply c_const|lra]. apply c_minus; [|apply c_const].
    apply (c_comp (fun u => (u - d) / a) (fun v => Rpower 10 v)); [|apply c_Rpower_exponent].
    apply c_div; [apply c_minus; [apply c_id|apply c_const]|apply c_const|lra]. }
  assert (E : forall u, eval_real (-7) [g; a; b; c; d] u = Some (ext_pow (Fin (N u)) (Fin (1 / g)))).
  { intros u. ev. rewrite !Rltb_f by assumption. cbn [orb]. rewrite (div_fin (u - d)) by lra.
    rewrite pow_fin by lra. ar. rewrite div_fin by lra. rewrite power_pos by lra. fold (N u). now rewrite div_fin by lra. }
  destruct (whole_dec (1 / g)) as [(n & W)|W].
  - split; [intros _ _ _ _ _; now exists n|]. intros _.
    assert (NP : (0 <= n)%Z). { apply le_IZR. rewrite <- W. apply Rlt_le, Rdiv_lt_0_compat; lra. }
    apply (steady_whole _ _ (fun u => powerRZ (N u) n)).
    + intros u. rewrite E, W. rewrite pow_int by now right. reflexivity.
    + apply (c_comp N (fun v => powerRZ v n)); [apply CN|apply c_powerRZ; now right].
  - split; [|intros H; destruct H as (n & H); try assumption; [lra|now destruct (W n)]]. intros S. exfalso. revert S. apply strays. intros dl D.
    exists (x - dl / 2). split; [lra|]. intros y. rewrite E. rewrite pow_nan; [discriminate| |exact W].
    unfold N. assert (L : Rpower 10 ((x - dl / 2 - d) / a) < Rpower 10 ((x - d) / a)).
    { apply Rpower_lt; [lra|]. apply Rmult_lt_compat_r; [apply Rinv_0_lt_compat; lra|lra]. }
    replace ((Rpower 10 ((x - dl / 2 - d) / a) - c) / b) with (- ((c - Rpower 10 ((x - dl / 2 - d) / a)) / b)) by (field; lra).
    assert (0 < (c - Rpower 10 ((x - dl / 2 - d) / a)) / b) by (apply Rdiv_lt_0_compat; lra). lra.
Qed.

(** ** Types 8 and -8 *)
Lemma near_int z : exists r, 0 < r /\ forall v, z < v < z + r -> forall n, v <> IZR n.
Proof.
  exists (IZR (up z) - z). destruct (archimed z) as (A1 & A2). split; [lra|]. intros v V n E. subst v.
  assert (L : (n < up z)%Z) by (apply lt_IZR; lra). assert (M : (up z - 1 < n)%Z) by (apply lt_IZR; rewrite minus_IZR; lra). lia.
Qed.
Lemma nan_times a e : ext_add (ext_mul (Fin a) NaN) e = NaN. Proof. destruct e; reflexivity. Qed.
Lemma inf_times a e y : ext_add (ext_mul (Fin a) PInf) (Fin e) <> Fin y.
Proof.
  cbn [ext_mul ext_sgn]. unfold Reqb. destruct (Req_EM_T a 0); [discriminate|]. destruct (Req_EM_T 1 0); [discriminate|].
  unfold inf_of. destruct (Rltb (a * 1) 0); discriminate.
Qed.
Lemma type8_all a b c d e x :
  steady 8 [a; b; c; d; e] x <->
  0 < b \/ (b = 0 /\ (0 < c * x + d \/ (c = 0 /\ d = 0))) \/ (b < 0 /\ c = 0 /\ whole d).
Proof.
  assert (E : forall u, eval_real 8 [a; b; c; d; e] u = Some (ext_add (ext_mul (Fin a) (ext_pow (Fin b) (Fin (c * u + d)))) (Fin e))).
  { intros u. ev. reflexivity. }
  destruct (Rtotal_order b 0) as [B|[->|B]].
  - destruct (Req_dec c 0) as [->|C].
    + assert (K : forall u, 0 * u + d = d) by (intros u; ring). destruct (whole_dec d) as [(n & ->)|W].
      * split; [intros _; right; right; repeat split; [exact B|now exists n]|]. intros _.
        apply (steady_whole _ _ (fun _ => a * powerRZ b n + e)); [|apply c_const]. intros u. rewrite E, K. rewrite pow_int by (left; lra). reflexivity.
      * split; [|intros [H|[H|(_ & _ & n & H)]]; [lra|lra|now destruct (W n)]]. intros S. exfalso. revert S. apply not_number. intros y.
        rewrite E, K, pow_nan by assumption. discriminate.
    + split; [|lra]. intros S. exfalso. revert S. apply strays. intros dl D. destruct (near_int (c * x + d)) as (r & R0 & H).
      set (h := Rmin (dl / 2) (r / (2 * Rabs c))). pose proof (Rabs_pos_lt c C) as AC.
      assert (HP : 0 < h) by (apply Rmin_pos; [lra|apply Rdiv_lt_0_compat; lra]). pose proof (Rmin_l (dl / 2) (r / (2 * Rabs c))) as H1.
      pose proof (Rmin_r (dl / 2) (r / (2 * Rabs c))) as H2. fold h in H1, H2. assert (H3 : Rabs c * h <= r / 2).
      { apply Rle_trans with (Rabs c * (r / (2 * Rabs c))); [apply Rmult_le_compat_l; lra|]. right. field. lra. }
      assert (H4 : 0 < Rabs c * h) by (apply Rmult_lt_0_compat; lra).
      exists (if Rlt_dec c 0 then x - h else x + h). split; [destruct (Rlt_dec c 0); lra|]. intros y. rewrite E. rewrite pow_nan; [discriminate|exact B|].
      apply H. unfold Rabs in *. destruct (Rcase_abs c), (Rlt_dec c 0); lra.
  - assert (P0 : forall u, 0 < c * u + d -> eval_real 8 [a; 0; c; d; e] u = Some (Fin e)).
    { intros u U. rewrite E. rewrite pow_fin0 by lra. rewrite power_0. ar. do 2 f_equal. ring. }
    assert (PN : forall u y, c * u + d < 0 -> eval_real 8 [a; 0; c; d; e] u <> Some (Fin y)).
    { intros u y U. rewrite E, pow0_neg by exact U. intros F. apply some_eq in F. exact (inf_times a e y F). }
    destruct (Rtotal_order (c * x + d) 0) as [L|[Z|L]].
    + split.
      * intros S. exfalso. revert S. apply not_number. intros y. now apply PN.
      * intros [H|[(_ & [H|(-> & ->)])|H]]; lra.
    + destruct (Req_dec c 0) as [->|C].
      * assert (d = 0) by lra. subst d. split; [intros _; right; left; split; [reflexivity|right; split; reflexivity]|]. intros _.
        apply (steady_whole _ _ (fun _ => a + e)); [|apply c_const]. intros u. rewrite E. replace (0 * u + 0) with 0 by ring.
        cbn [ext_pow]. rewrite Reqb_t by reflexivity. ar. now rewrite Rmult_1_r.
      * split; [|lra]. intros S. exfalso. revert S. apply strays. intros dl D.
        exists (if Rlt_dec c 0 then x + dl / 2 else x - dl / 2). split; [destruct (Rlt_dec c 0); lra|]. intros y. apply PN.
        destruct (Rlt_dec c 0) as [Q|Q].
        -- assert (0 < - c * (dl / 2)) by (apply Rmult_lt_0_compat; lra). lra.
        -- assert (0 < c * (dl / 2)) by (apply Rmult_lt_0_compat; lra). lra.
    + split; [intros _; right; left; split; [reflexivity|now left]|]. intros _.
      destruct (near_pos (fun u => c * u + d) x (c_line c d x) L) as (dl & D & K).
      apply (smooth _ _ _ dl (fun _ => e)); [exact D| |apply c_const]. intros u U. now apply P0, K.
  - split; [tauto|]. intros _. now apply type8_steady.
Qed.

Lemma type8r_all a b c d e x :
  steady (-8) [a; b; c; d; e] x <->
  (tol <= Rabs a -> tol <= Rabs c -> x <> e /\ (e < x -> 0 < a /\ 0 <= b /\ b <> 1)).
Proof.
  pose proof tol_pos as T.
  assert (DEC : (tol <= Rabs a /\ tol <= Rabs c) \/ Rabs a < tol \/ Rabs c < tol).
  { destruct (Rlt_dec (Rabs a) tol); [tauto|]. destruct (Rlt_dec (Rabs c) tol); [tauto|]. lra. }
  destruct DEC as [(A & C)|K].
  2:{ split; [lra|]. intros _. apply (steady_whole _ _ (fun _ => 0)); [|apply c_const]. intros u. ev.
      destruct K as [K|K]; rewrite (Rltb_t _ _ K); rewrite ?orb_true_r; now destruct (Rltb (u - e) 0). }
  pose proof (abs_nz a A) as NA. pose proof (abs_nz c C) as NC.
  assert (LOW : forall u, u < e -> eval_real (-8) [a; b; c; d; e] u = Some (Fin 0)).
  { intros u U. ev. now rewrite Rltb_t by lra. }
  assert (HIGH : forall u, e <= u -> eval_real (-8) [a; b; c; d; e] u =
    Some (ext_div (ext_sub (ext_div (ext_log10 (Fin ((u - e) / a))) (ext_log10 (Fin b))) (Fin d)) (Fin c))).
  { intros u U. ev. rewrite Rltb_f by lra. rewrite !small_abs by assumption. cbn [orb]. now rewrite div_fin by exact NA. }
  assert (TAIL : forall z y, (forall v, z <> Fin v) -> ext_div (ext_sub z (Fin d)) (Fin c) <> Fin y).
  { intros z y Z. destruct z as [v| | |]; [now destruct (Z v)| | |]; cbn [ext_sub ext_neg ext_add ext_div]; [destruct (Rltb c 0)..|]; discriminate. }
  assert (LN1 : forall v, 0 < v -> ext_log10 (Fin v) = Fin (log_10 v)) by exact log_fin.
  assert (L0 : ext_log10 (Fin 0) = NInf) by (cbn [ext_log10]; rewrite Rltb_f by lra; now rewrite Reqb_t).
  assert (LN : forall v, v < 0 -> ext_log10 (Fin v) = NaN) by (intros v V; cbn [ext_log10]; rewrite Rltb_f by lra; now rewrite Reqb_f by lra).
  destruct (Rtotal_order x e) as [L|[->|L]].
  - split; [intros _ _ _; split; lra|]. intros _. apply (smooth _ _ _ (e - x) (fun _ => 0)); [lra| |apply c_const]. intros u U. apply LOW. lra.
  - split; [|intros H; destruct (H A C) as (H1 & _); now destruct H1]. intros S. exfalso. revert S. apply not_number. intros y. rewrite HIGH by lra.
    replace ((e - e) / a) with 0 by (now field). rewrite L0. intros F. apply some_eq in F. revert F. apply TAIL. intros v.
    destruct (ext_log10 (Fin b)) as [w| | |]; cbn [ext_div]; [destruct (Rltb w 0)|..]; discriminate.
  - destruct (Rlt_dec a 0) as [AN|AP].
    { split; [|intros H; destruct (H A C) as (_ & H1); specialize (H1 L); lra]. intros S. exfalso. revert S. apply not_number. intros y.
      rewrite HIGH by lra. rewrite LN.
      - intros F. apply some_eq in F. revert F. apply TAIL. intros v. destruct (ext_log10 (Fin b)); discriminate.
      - replace ((x - e) / a) with (- ((x - e) / - a)) by (now field; lra). assert (0 < (x - e) / - a) by (apply Rdiv_lt_0_compat; lra). lra. }
    assert (PA : 0 < a) by lra. assert (PX : forall u, e < u -> 0 < (u - e) / a) by (intros u U; apply Rdiv_lt_0_compat; lra).
    destruct (Rtotal_order b 0) as [B|[->|B]].
    + split; [|intros H; destruct (H A C) as (_ & H1); specialize (H1 L); lra]. intros S. exfalso. revert S. apply not_number. intros y.
      rewrite HIGH by lra. rewrite (LN b) by exact B. rewrite LN1 by now apply PX. cbn. discriminate.
    + split; [intros _ _ _; split; [lra|intros _; split; lra]|]. intros _.
      apply (smooth _ _ _ (x - e) (fun _ => - d / c)); [lra| |apply c_const]. intros u U. rewrite HIGH by lra. rewrite L0, LN1 by (apply PX; lra).
      cbn [ext_div]. rewrite sub_fin. rewrite Rminus_0_l. unfold ext_div. now rewrite Reqb_f by exact NC.
    + destruct (Req_dec b 1) as [->|B1].
      * split; [|intros H; destruct (H A C) as (_ & H1); specialize (H1 L); lra]. intros S. exfalso. revert S. apply not_number. intros y.
        rewrite HIGH by lra. rewrite !LN1 by (lra || now apply PX). intros F. apply some_eq in F. revert F. apply TAIL. intros v.
        replace (log_10 1) with 0 by (unfold log_10; rewrite ln_1; field; pose proof ln10_pos; lra). cbn [ext_div]. rewrite Reqb_t by reflexivity.
        destruct (Reqb _ 0); [discriminate|]. unfold inf_of. destruct (Rltb _ 0); discriminate.
      * split; [intros _ _ _; split; [lra|intros _; split; lra]|]. intros _. apply type8r_steady; try assumption; [|lra].
        rewrite Rabs_right in A by lra. lra.
Qed.

(** ** Types 108 and -108 *)
Section Bump.
Context (t : Z) (ps : list R) (h : R) (post : R -> R) (wf : R -> R) (sg k : R).
Context (H0 : h <> 0) (SG : sg = 1 \/ sg = -1) (WF : forall u, wf u = sg * u + k).
Context (post_ext : ext -> ext).
Context (POST : forall v, post_ext (Fin v) = Fin (post v)) (BAD : forall z y, (forall v, z <> Fin v) -> post_ext z <> Fin y).
Context (CP : forall v, cont post v).
Context (EV : forall u, eval_real t ps u = Some (post_ext (ext_pow (ext_sub (Fin 1) (ext_pow (Fin (wf u)) (Fin h))) (Fin h)))).

Lemma c_wf u : cont wf u.
Proof. apply (cont_near (fun u => sg * u + k) _ _ 1); [lra| |apply c_line]. intros v _. symmetry. apply WF. Qed.
Lemma bump_good x dl (G : R -> R) : 0 < dl ->
  (forall w, wf x - dl < w < wf x + dl -> ext_pow (ext_sub (Fin 1) (ext_pow (Fin w) (Fin h))) (Fin h) = Fin (G w)) ->
  cont G (wf x) -> steady t ps x.
Proof.
  intros D E C. apply (smooth _ _ _ dl (fun u => post (G (wf u)))); [exact D| |].
  - intros u U. rewrite EV, E, POST; [reflexivity|]. rewrite !WF. destruct SG as [-> | ->]; lra.
  - apply (c_comp (fun u => G (wf u)) post); [|apply CP]. apply (c_comp wf G); [apply c_wf|exact C].
Qed.
Lemma bump_bad x : (forall dl, 0 < dl -> exists w, wf x - dl < w < wf x + dl /\
    forall v, ext_pow (ext_sub (Fin 1) (ext_pow (Fin w) (Fin h))) (Fin h) <> Fin v) -> ~ steady t ps x.
Proof.
  intros B. apply strays. intros dl D. destruct (B dl D) as (w & W & N). exists (sg * (w - k)). split.
  - rewrite WF in W. destruct SG as [-> | ->]; lra.
  - intros y. rewrite EV. assert (E : wf (sg * (w - k)) = w) by (rewrite WF; destruct SG as [-> | ->]; ring). rewrite E.
    intros F. apply some_eq in F. exact (BAD _ _ N F).
Qed.

Lemma bump_not_whole x : (forall n, h <> IZR n) ->
  (steady t ps x <-> (0 < h /\ 0 < wf x < 1) \/ (h < 0 /\ 1 < wf x)).
Proof.
  intros W. set (w := wf x).
  assert (V : forall v, 0 < v -> ext_pow (ext_sub (Fin 1) (ext_pow (Fin v) (Fin h))) (Fin h) = ext_pow (Fin (1 - Rpower v h)) (Fin h)).
  { intros v P. rewrite pow_fin by exact P. rewrite power_pos by exact P. now ar. }
  assert (NEG : forall v y, v < 0 -> ext_pow (ext_sub (Fin 1) (ext_pow (Fin v) (Fin h))) (Fin h) <> Fin y).
  { intros v y P. rewrite (pow_nan v) by assumption. cbn [ext_sub ext_neg ext_add]. rewrite pow_of_nan by exact H0. discriminate. }
  assert (OVER : forall v y, 0 < v -> 1 < Rpower v h -> ext_pow (ext_sub (Fin 1) (ext_pow (Fin v) (Fin h))) (Fin h) <> Fin y).
  { intros v y P L. rewrite V by exact P. rewrite pow_nan; [discriminate|lra|exact W]. }
  assert (IN : 0 < w -> Rpower w h < 1 -> steady t ps x).
  { intros P L. assert (CQ : cont (fun v => 1 - Rpower v h) w) by (apply c_minus; [apply c_const|now apply c_Rpower]).
    destruct (near_pos _ w CQ ltac:(lra)) as (d1 & D1 & K1).
    apply (bump_good x (Rmin d1 w) (fun v => Rpower (1 - Rpower v h) h)); [apply Rmin_pos; lra| |].
    - intros v U. fold w in U. pose proof (Rmin_l d1 w). pose proof (Rmin_r d1 w). rewrite V by lra. specialize (K1 v ltac:(lra)).
      rewrite pow_fin by exact K1. now rewrite power_pos.
    - apply (c_comp (fun v => 1 - Rpower v h) (fun q => Rpower q h)); [exact CQ|]. apply c_Rpower. fold w. lra. }
  assert (LEFT : w <= 0 -> ~ steady t ps x).
  { intros L. apply bump_bad. intros dl D. exists (w - dl / 2). fold w. split; [lra|]. intros v. apply NEG. lra. }
  assert (P1 : forall e, Rpower 1 e = 1) by (intros e; unfold Rpower; rewrite ln_1, Rmult_0_r; apply exp_0).
  assert (GT : forall v, 0 < h -> 1 < v -> 1 < Rpower v h).
  { intros v HP L. rewrite <- (P1 h). apply Rlt_Rpower_l; lra. }
  assert (LT : forall v, 0 < h -> 0 < v < 1 -> Rpower v h < 1).
  { intros v HP L. rewrite <- (P1 h). apply Rlt_Rpower_l; lra. }
  assert (FLIP : forall v, Rpower v h = / Rpower v (- h)) by (intros v; rewrite Rpower_Ropp, Rinv_inv; reflexivity).
  destruct (Rle_dec w 0) as [L|L].
  { split; [|lra]. intros S. now destruct (LEFT L). }
  destruct (Rlt_dec 0 h) as [HP|HN].
  - destruct (Rlt_dec w 1) as [L1|L1].
    + split; [intros _; left; lra|]. intros _. apply IN; [lra|]. apply LT; lra.
    + split; [|lra]. intros S. exfalso. revert S. apply bump_bad. intros dl D. exists (w + dl / 2). fold w. split; [lra|]. intros v. apply OVER; [lra|]. apply GT; lra.
  - assert (HN' : 0 < - h) by lra.
    assert (GT' : forall v, 1 < v -> Rpower v h < 1).
    { intros v Q. rewrite FLIP. rewrite <- Rinv_1. apply Rinv_lt_contravar; [rewrite Rmult_1_l; apply Rpower_pos|]. rewrite <- (P1 (- h)). apply Rlt_Rpower_l; lra. }
    assert (LT' : forall v, 0 < v < 1 -> 1 < Rpower v h).
    { intros v Q. rewrite FLIP. rewrite <- Rinv_1 at 1. apply Rinv_lt_contravar; [rewrite Rmult_1_r; apply Rpower_pos|]. rewrite <- (P1 (- h)). apply Rlt_Rpower_l; lra. }
    destruct (Rlt_dec 1 w) as [L1|L1].
    + split; [intros _; right; lra|]. intros _. apply IN; [lra|]. now apply GT'.
    + split; [|lra]. intros S. exfalso. revert S. apply bump_bad. intros dl D. set (r := Rmin (dl / 2) (w / 2)).
      pose proof (Rmin_l (dl / 2) (w / 2)). pose proof (Rmin_r (dl / 2) (w / 2)). assert (0 < r) by (apply Rmin_pos; lra). fold r in H, H1.
      exists (w - r). fold w. split; [lra|]. intros v. apply OVER; [lra|]. apply LT'. lra.
Qed.

Lemma pow_one m u : (0 < m)%nat -> (u ^ m = 1 <-> u = 1 \/ (Nat.even m = true /\ u = -1)).
Proof.
  intros M. assert (POS : forall v, 0 <= v -> v ^ m = 1 -> v = 1).
  { intros v V E. destruct (Rtotal_order v 1) as [L|[->|L]]; [|reflexivity|].
    - pose proof (pow_lt_1_compat v m ltac:(lra) M). lra.
    - pose proof (Rlt_pow_R1 v m ltac:(lra) M). lra. }
  assert (SIGN : (-1) ^ m = if Nat.even m then 1 else -1).
  { rewrite (Nat.div2_odd m) at 1. rewrite pow_add, pow_1_even, <- Nat.negb_odd. destruct (Nat.odd m); cbn; ring. }
  split.
  - intros E. destruct (Rle_dec 0 u) as [P|P]; [left; now apply POS|right].
    replace u with (-1 * (- u)) in E by ring. rewrite Rpow_mult_distr, SIGN in E. assert (0 < (- u) ^ m) by (apply pow_lt; lra).
    destruct (Nat.even m); [|lra]. split; [reflexivity|]. assert (- u = 1); [|lra]. apply POS; lra.
  - intros [->|(EV' & ->)]; [apply pow1|]. now rewrite SIGN, EV'.
Qed.

Lemma bump_whole x n : h = IZR n ->
  (steady t ps x <-> 0 < h \/ (wf x <> 1 /\ (Z.even n = true -> wf x <> -1))).
Proof.
  intros W. set (w := wf x). assert (N0 : n <> 0%Z) by (intros ->; now apply H0).
  destruct (Z_lt_le_dec 0 n) as [P|P].
  { assert (HP : 0 < h) by (rewrite W; now apply (IZR_lt 0)). split; [tauto|]. intros _.
    apply (bump_good x 1 (fun v => powerRZ (1 - powerRZ v n) n)); [lra| |].
    - intros v _. rewrite W. rewrite pow_int by (right; lia). ar. rewrite pow_int by (right; lia). reflexivity.
    - apply (c_comp (fun v => 1 - powerRZ v n) (fun q => powerRZ q n)); [|apply c_powerRZ; right; lia].
      apply c_minus; [apply c_const|apply c_powerRZ; right; lia]. }
  assert (HN : h < 0) by (rewrite W; apply (IZR_lt n 0); lia). destruct n as [|p|p]; [lia|lia|].
  set (m := Pos.to_nat p). assert (M : (0 < m)%nat) by (unfold m; lia).
  assert (EVN : Z.even (Z.neg p) = Nat.even m).
  { unfold m. destruct p as [q|q|]; cbn [Z.even].
    - rewrite Pos2Nat.inj_xI. now rewrite Nat.even_succ, <- Nat.negb_even, Nat.even_mul.
    - rewrite Pos2Nat.inj_xO. now rewrite Nat.even_mul.
    - reflexivity. }
  assert (VAL : forall v, v ^ m <> 1 -> ext_pow (ext_sub (Fin 1) (ext_pow (Fin v) (Fin h))) (Fin h) = Fin ((v ^ m / (v ^ m - 1)) ^ m)).
  { intros v Q. destruct (Req_dec v 0) as [->|V].
    - rewrite pow0_neg by exact HN. cbn [ext_sub ext_neg ext_add ext_pow]. rewrite Reqb_f by exact H0. rewrite Rltb_f by lra.
      do 1 f_equal. rewrite (pow_i m) by exact M. replace (0 / (0 - 1)) with 0 by (field; lra). symmetry. apply pow_i. exact M.
    - assert (VM : v ^ m <> 0) by (now apply pow_nonzero). rewrite W. rewrite pow_int by now left. ar.
      assert (Q2 : 1 - powerRZ v (Z.neg p) <> 0).
      { cbn [powerRZ]. fold m. intros E. apply Q. rewrite <- (Rinv_inv (v ^ m)). replace (/ v ^ m) with 1 by lra. apply Rinv_1. }
      rewrite pow_int by now left. f_equal. cbn [powerRZ] in *. fold m in Q2 |- *. rewrite <- pow_inv. f_equal. assert (Q3 : v ^ m - 1 <> 0) by (intros E; apply Q; lra). field. repeat split; assumption. }
  destruct (Req_dec (w ^ m) 1) as [E|E].
  - split.
    + intros S. exfalso. revert S. apply not_number. intros y. rewrite EV. fold w. assert (NW : w <> 0) by (intros Z; rewrite Z, pow_i in E by exact M; lra).
      rewrite W. rewrite pow_int by now left. ar. cbn [powerRZ]. fold m. rewrite E. rewrite Rinv_1. replace (1 - 1) with 0 by ring.
      rewrite pow0_neg by (rewrite W in HN; exact HN). intros F. apply some_eq in F. revert F. apply BAD. discriminate.
    + intros [Q|(Q1 & Q2)]; [lra|]. apply pow_one in E; [|exact M]. destruct E as [E|(E1 & E2)]; [contradiction|]. rewrite EVN in Q2. now destruct (Q2 E1).
  - split.
    + intros _. right. split; [intros Q; apply E; rewrite Q; apply pow1|]. intros Q1 Q2. apply E. apply pow_one; [exact M|]. right. split; [congruence|exact Q2].
    + intros _. assert (CM : forall v, cont (fun v => v ^ m - 1) v) by (intros v; apply c_minus; [apply derivable_continuous_pt, derivable_pt_pow|apply c_const]).
      assert (ND : exists dl, 0 < dl /\ forall v, w - dl < v < w + dl -> v ^ m <> 1).
      { destruct (Rlt_dec (w ^ m - 1) 0) as [Q|Q].
        - destruct (near_neg _ w (CM w) Q) as (dl & D & K). exists dl. split; [exact D|]. intros v U. specialize (K v U). cbn beta in K. lra.
        - destruct (near_pos _ w (CM w) ltac:(cbn beta; lra)) as (dl & D & K). exists dl. split; [exact D|]. intros v U. specialize (K v U). cbn beta in K. lra. }
      destruct ND as (dl & D & K). apply (bump_good x dl (fun v => (v ^ m / (v ^ m - 1)) ^ m)); [exact D| |].
      * intros v U. now apply VAL, K.
      * apply (c_comp (fun v => v ^ m / (v ^ m - 1)) (fun q => q ^ m)); [|apply derivable_continuous_pt, derivable_pt_pow].
        apply c_div; [apply derivable_continuous_pt, derivable_pt_pow|apply CM|]. fold w. lra.
Qed.
End Bump.

Lemma type108_all g x :
  steady 108 [g] x <->
  (tol <= Rabs g ->
   (0 < g /\ 0 < x < 1) \/ (g < 0 /\ x < 0) \/
   exists n, 1 / g = IZR n /\ (0 < g \/ (x <> 0 /\ (Z.even n = true -> x <> 2)))).
Proof.
  destruct (Rlt_dec (Rabs g) tol) as [S|S].
  { split; [lra|]. intros _. apply (steady_whole _ _ (fun _ => 0)); [|apply c_const]. intros u. ev. now rewrite Rltb_t by exact S. }
  assert (G : tol <= Rabs g) by lra. pose proof (abs_nz g G) as NG. assert (H0 : 1 / g <> 0).
  { unfold Rdiv. rewrite Rmult_1_l. now apply Rinv_neq_0_compat. }
  assert (EV : forall u, eval_real 108 [g] u = Some (ext_pow (ext_sub (Fin 1) (ext_pow (Fin (1 - u)) (Fin (1 / g)))) (Fin (1 / g)))).
  { intros u. ev. rewrite small_abs by exact G. now rewrite !(div_fin 1) by exact NG. }
  assert (SGN : 0 < g <-> 0 < 1 / g).
  { split; intros P; [apply Rdiv_lt_0_compat; lra|]. replace g with (1 / (1 / g)) by (now field). apply Rdiv_lt_0_compat; lra. }
  assert (SG : -1 = 1 \/ -1 = -1) by (right; reflexivity). assert (WF : forall u, 1 - u = -1 * u + 1) by (intros u; ring).
  assert (PE : forall v, (fun z : ext => z) (Fin v) = Fin ((fun v => v) v)) by reflexivity.
  assert (BAD : forall z y, (forall v, z <> Fin v) -> (fun z : ext => z) z <> Fin y) by (intros z y Z E; exact (Z y E)).
  destruct (whole_dec (1 / g)) as [(n & W)|W].
  - pose proof (bump_whole 108 [g] (1 / g) (fun v => v) (fun u => 1 - u) (-1) 1 H0 SG WF (fun z => z) PE BAD c_id EV x n W) as B.
    cbv beta in B. rewrite B. clear B. split.
    + intros H _. right. right. exists n. split; [exact W|]. destruct H as [H|(H1 & H2)]; [left; now apply SGN|right]. split; [lra|]. intros E. specialize (H2 E). lra.
    + intros H. destruct (H G) as [(H1 & _)|[(H1 & H2)|(n' & W' & H1)]].
      * left. now apply SGN.
      * right. split; lra.
      * assert (n' = n) by (apply eq_IZR; congruence). subst n'. destruct H1 as [H1|(H1 & H2)]; [left; now apply SGN|right]. split; [lra|]. intros E. specialize (H2 E). lra.
  - pose proof (bump_not_whole 108 [g] (1 / g) (fun v => v) (fun u => 1 - u) (-1) 1 H0 SG WF (fun z => z) PE BAD c_id EV x W) as B.
    cbv beta in B. rewrite B. clear B. split.
    + intros [(H1 & H2)|(H1 & H2)] _.
      * left. split; [now apply SGN|lra].
      * right. left. split; [|lra]. destruct (Rlt_dec 0 g) as [Q|Q]; [apply SGN in Q; lra|lra].
    + intros H. destruct (H G) as [(H1 & H2)|[(H1 & H2)|(n' & W' & _)]].
      * left. split; [now apply SGN|lra].
      * right. split; [now apply neg_inv|lra].
      * now destruct (W n').
Qed.
Lemma type108r_all g x :
  steady (-108) [g] x <->
  g = 0 \/ (0 < g /\ 0 < x < 1) \/ (g < 0 /\ 1 < x) \/
  exists n, g = IZR n /\ (0 < g \/ (x <> 1 /\ (Z.even n = true -> x <> -1))).
Proof.
  assert (EV : forall u, eval_real (-108) [g] u = Some (ext_sub (Fin 1) (ext_pow (ext_sub (Fin 1) (ext_pow (Fin u) (Fin g))) (Fin g)))) by (intros u; ev; reflexivity).
  destruct (Req_dec g 0) as [->|H0].
  { split; [tauto|]. intros _. apply (steady_whole _ _ (fun _ => 0)); [|apply c_const]. intros u. rewrite EV.
    assert (P0 : forall z, ext_pow z (Fin 0) = Fin 1) by (intros z; destruct z; cbn [ext_pow]; now rewrite Reqb_t). rewrite !P0. ar. do 2 f_equal. ring. }
  assert (SG : 1 = 1 \/ 1 = -1) by (left; reflexivity). assert (WF : forall u, u = 1 * u + 0) by (intros u; ring).
  assert (BAD : forall z y, (forall v, z <> Fin v) -> ext_sub (Fin 1) z <> Fin y).
  { intros z y Z. destruct z as [v| | |]; [now destruct (Z v)|..]; discriminate. }
  assert (PE : forall v, ext_sub (Fin 1) (Fin v) = Fin (1 - v)) by (intros v; now ar).
  assert (CP : forall v, cont (fun v => 1 - v) v) by (intros v; apply c_minus; [apply c_const|apply c_id]).
  destruct (whole_dec g) as [(n & W)|W].
  - pose proof (bump_whole (-108) [g] g (fun v => 1 - v) (fun u => u) 1 0 H0 SG WF (fun z => ext_sub (Fin 1) z) PE BAD CP EV x n W) as B.
    cbv beta in B. rewrite B. clear B. split.
    + intros H. right. right. right. exists n. split; [exact W|exact H].
    + intros [H|[(H1 & _)|[(H1 & H2)|(n' & W' & H1)]]]; [contradiction|now left|right; split; lra|].
      assert (n' = n) by (apply eq_IZR; congruence). now subst n'.
  - pose proof (bump_not_whole (-108) [g] g (fun v => 1 - v) (fun u => u) 1 0 H0 SG WF (fun z => ext_sub (Fin 1) z) PE BAD CP EV x W) as B.
    cbv beta in B. rewrite B. clear B. split; [tauto|].
    intros [H|[H|[H|(n' & W' & _)]]]; [contradiction|tauto|tauto|now destruct (W n')].
Qed.

(** ** Types 109 and -109 *)
Lemma logistic_at_0 t : logistic 0 t = 0.
Proof. unfold logistic. replace (- 0 * t) with 0 by ring. rewrite exp_0. lra. Qed.
Lemma type109_all k x : steady 109 [k] x <-> k <> 0.
Proof.
  split; [|apply type109_steady]. intros S ->. revert S. apply not_number. intros y. ev. unfold sigmoid_factory.
  cbn [ext_ops f_lit f_neg f_add f_sub f_mul f_div f_exp]. ar. change (f_lit ext_ops L1) with (Fin 1). rewrite !base_val, !logistic_at_0.
  cbn [ext_div]. rewrite Reqb_t by reflexivity. rewrite Reqb_f by lra. unfold inf_of. rewrite Rltb_f by lra. cbn [ext_mul ext_sgn].
  rewrite Reqb_f by lra. rewrite Reqb_t by reflexivity. discriminate.
Qed.
Lemma type109r_all k x : steady (-109) [k] x <-> k <> 0 /\ 0 < (2 * x - 1) * logistic k 1 + / 2 < 1.
Proof.
  destruct (Req_dec k 0) as [->|K].
  { split; [|tauto]. intros S. exfalso. revert S. apply not_number. intros y. ev. unfold inverted_sigmoid_factory, inverted_sigmoid_base.
    cbn [ext_ops f_lit f_neg f_add f_sub f_mul f_div f_exp f_log10]. ar. change (f_lit ext_ops L1) with (Fin 1). rewrite base_val, logistic_at_0.
    assert (E : ext_div (Fin (/ 2)) (Fin 0) = PInf) by (cbn [ext_div]; rewrite Reqb_t by reflexivity; rewrite Reqb_f by lra; unfold inf_of; now rewrite Rltb_f by lra).
    rewrite E. assert (E2 : ext_div (Fin (x - / 2)) PInf = Fin 0) by reflexivity. rewrite E2. ar. rewrite div_fin by lra. ar.
    rewrite log_fin by lra. replace (log_10 (1 / (0 + / 2) - 1)) with 0 by (replace (1 / (0 + / 2) - 1) with 1 by field; unfold log_10; rewrite ln_1; field; pose proof ln10_pos; lra).
    cbn [ext_neg ext_div]. rewrite Reqb_t by reflexivity. rewrite Reqb_t by ring. cbn. discriminate. }
  pose proof (logistic_1_nz k K) as L. set (N := fun u => (2 * u - 1) * logistic k 1 + / 2).
  assert (CN : forall u, cont N u).
  { intros u. apply c_plus; [|apply c_const]. apply c_mult; [|apply c_const].
    apply c_minus; [apply c_mult; [apply c_const|apply c_id]|apply c_const]. }
  assert (EV : forall u, eval_real (-109) [k] u =
    Some (ext_div (ext_add (ext_div (ext_neg (ext_log10 (ext_sub (ext_div (Fin 1) (Fin (N u))) (Fin 1)))) (Fin k)) (Fin 1)) (Fin 2))).
  { intros u. ev. unfold inverted_sigmoid_factory, inverted_sigmoid_base.
    cbn [ext_ops f_lit f_neg f_add f_sub f_mul f_div f_exp f_log10]. ar.
    change (f_lit ext_ops L1) with (Fin 1). rewrite base_val. rewrite (div_fin (/ 2)) by exact L.
    assert (C : / 2 / logistic k 1 <> 0).
    { unfold Rdiv. apply Rmult_integral_contrapositive_currified; [lra|]. now apply Rinv_neq_0_compat. }
    rewrite (div_fin _ (/ 2 / logistic k 1)) by exact C. ar.
    now replace ((u - / 2) / (/ 2 / logistic k 1) + / 2) with (N u) by (unfold N; field; exact L). }
  assert (TAIL : forall z y, (forall v, z <> Fin v) -> ext_div (ext_add (ext_div (ext_neg z) (Fin k)) (Fin 1)) (Fin 2) <> Fin y).
  { intros z y Z. destruct z as [v| | |]; [now destruct (Z v)|..]; cbn [ext_neg ext_div ext_add]; [destruct (Rltb k 0)..|]; cbn [ext_neg ext_add ext_div]; try destruct (Rltb 2 0); discriminate. }
  fold (N x). split.
  - intros S. split; [exact K|]. destruct (Rlt_dec 0 (N x)) as [P|P].
    + split; [exact P|]. destruct (Rlt_dec (N x) 1) as [Q|Q]; [exact Q|]. exfalso. revert S. apply not_number. intros y. rewrite EV. intros F. apply some_eq in F. revert F. apply TAIL. intros v.
      rewrite div_fin by lra. ar. assert (1 / N x - 1 <= 0).
      { assert (1 / N x <= 1); [|lra]. apply Rmult_le_reg_r with (N x); [exact P|]. replace (1 / N x * N x) with 1 by (field; lra). lra. }
      cbn [ext_log10]. rewrite Rltb_f by lra. destruct (Reqb _ 0); discriminate.
    + exfalso. revert S. apply not_number. intros y. rewrite EV. intros F. apply some_eq in F. revert F. apply TAIL. intros v.
      destruct (Req_dec (N x) 0) as [E|E].
      * rewrite E, inv0. cbn. discriminate.
      * rewrite div_fin by exact E. ar. assert (1 / N x < 0) by (apply neg_inv; lra). cbn [ext_log10]. rewrite Rltb_f by lra. rewrite Reqb_f by lra. discriminate.
  - intros (_ & NB). destruct (near_pos N x (CN x) ltac:(lra)) as (d1 & D1 & K1).
    destruct (near_pos (fun u => 1 - N u) x) as (d2 & D2 & K2); [apply c_minus; [apply c_const|apply CN]|lra|].
    assert (Q : forall v, 0 < v < 1 -> 0 < 1 / v - 1).
    { intros v V. assert (1 < 1 / v); [|lra]. apply Rmult_lt_reg_r with v; [lra|]. replace (1 / v * v) with 1 by (field; lra). lra. }
    apply (smooth _ _ _ (Rmin d1 d2) (fun u => (- log_10 (1 / N u - 1) / k + 1) / 2)); [apply Rmin_pos; lra| |].
    + intros u U. pose proof (Rmin_l d1 d2). pose proof (Rmin_r d1 d2). specialize (K1 u ltac:(lra)). specialize (K2 u ltac:(lra)). rewrite EV.
      rewrite div_fin by lra. ar. rewrite log_fin by (apply Q; lra). ar. rewrite div_fin by exact K. ar. now rewrite div_fin by lra.
    + apply c_div; [|apply c_const|lra]. apply c_plus; [|apply c_const]. apply c_div; [|apply c_const|exact K].
      apply c_opp. apply (c_log (fun u => 1 / N u - 1)); [|apply Q; lra].
      apply c_minus; [|apply c_const]. apply c_div; [apply c_const|apply CN|lra].
Qed.

(** ** Type 7 at and below 0 *)
Lemma type7_flip a b c d n u : u <> 0 ->
  eval_real 7 [IZR n; a; b; c; d] (- u) = eval_real 7 [IZR n; a; b * powerRZ (-1) n; c; d] u.
Proof.
  intros U. ev. rewrite !pow_int by (left; lra). ar. replace (- u) with (-1 * u) by ring. rewrite powerRZ_mult.
  replace (b * (powerRZ (-1) n * powerRZ u n)) with (b * powerRZ (-1) n * powerRZ u n) by ring. reflexivity.
Qed.
Lemma type7_below g a b c d x : x < 0 ->
  (steady 7 [g; a; b; c; d] x <->
   exists n, g = IZR n /\ (b * powerRZ x n + c = 0 -> a = 0 \/ b = 0 \/ g = 0)).
Proof.
  intros X. destruct (whole_dec g) as [(n & ->)|W].
  - assert (S1 : powerRZ (-1) n <> 0) by (apply powerRZ_NOR; lra).
    assert (E : steady 7 [IZR n; a; b; c; d] x <-> steady 7 [IZR n; a; b * powerRZ (-1) n; c; d] (- x)).
    { split; intros (y & Y & K).
      - exists y. split; [rewrite <- type7_flip by lra; now rewrite Ropp_involutive|]. intros eps EP. destruct (K eps EP) as (dl & D & K1).
        exists (Rmin dl (- x)). split; [apply Rmin_pos; lra|]. intros u U. pose proof (Rmin_l dl (- x)). pose proof (Rmin_r dl (- x)).
        destruct (K1 (- u) ltac:(lra)) as (y' & Y' & B). exists y'. split; [|exact B]. now rewrite <- type7_flip by lra.
      - exists y. split; [rewrite <- (Ropp_involutive x) at 1; now rewrite type7_flip by lra|]. intros eps EP. destruct (K eps EP) as (dl & D & K1).
        exists (Rmin dl (- x)). split; [apply Rmin_pos; lra|]. intros u U. pose proof (Rmin_l dl (- x)). pose proof (Rmin_r dl (- x)).
        destruct (K1 (- u) ltac:(lra)) as (y' & Y' & B). exists y'. split; [|exact B]. rewrite <- (Ropp_involutive u). now rewrite type7_flip by lra. }
    rewrite E, type7_steady by lra.
    assert (V : b * powerRZ (-1) n * Rpower (- x) (IZR n) = b * powerRZ x n).
    { rewrite <- powerRZ_Rpower by lra. rewrite Rmult_assoc, <- powerRZ_mult. do 2 f_equal. ring. }
    rewrite V. assert (BZ : b * powerRZ (-1) n = 0 <-> b = 0).
    { split; [|intros ->; ring]. intros Z. destruct (Rmult_integral _ _ Z); tauto. }
    rewrite BZ. split.
    + intros H. exists n. split; [reflexivity|exact H].
    + intros (n' & Q & H). apply eq_IZR in Q. now subst n'.
  - split; [|intros (n & Q & _); now destruct (W n)]. intros S. exfalso. revert S. apply not_number. intros y.
    rewrite type7_not_real by assumption. discriminate.
Qed.

(** The logarithm runs off to minus infinity as its argument goes down to 0, to infinity as it grows. *)
Lemma log_falls (f : R -> R) a d x : a <> 0 -> cont f x -> f x = 0 ->
  (forall dl, 0 < dl -> exists u, x - dl < u < x + dl /\ 0 < f u) ->
  forall dl, 0 < dl -> exists u, x - dl < u < x + dl /\ 0 < f u /\ 1 <= Rabs (a * log_10 (f u) + d - d).
Proof.
  intros A C Z H dl D. pose proof ln10_pos as T. pose proof (Rabs_pos_lt a A) as PA.
  set (t := exp (- (ln 10 / Rabs a))). assert (TP : 0 < t) by apply exp_pos.
  rewrite cont_eps in C. destruct (C t TP) as (d1 & D1 & K). destruct (H (Rmin dl d1) ltac:(apply Rmin_pos; lra)) as (u & U & P).
  pose proof (Rmin_l dl d1). pose proof (Rmin_r dl d1). exists u. split; [lra|]. split; [exact P|]. specialize (K u ltac:(lra)). rewrite Z in K.
  replace (a * log_10 (f u) + d - d) with (a * log_10 (f u)) by ring. rewrite Rabs_mult.
  assert (L : ln (f u) <= - (ln 10 / Rabs a)).
  { rewrite <- (ln_exp (- (ln 10 / Rabs a))). apply Rlt_le, ln_increasing; [exact P|]. fold t. lra. }
  assert (L2 : log_10 (f u) <= - (1 / Rabs a)).
  { unfold log_10. apply Rmult_le_reg_r with (ln 10); [exact T|]. replace (ln (f u) / ln 10 * ln 10) with (ln (f u)) by (field; lra).
    replace (- (1 / Rabs a) * ln 10) with (- (ln 10 / Rabs a)) by (field; lra). exact L. }
  assert (L3 : 0 < 1 / Rabs a) by (apply Rdiv_lt_0_compat; lra). rewrite (Rabs_left1 (log_10 (f u))) by lra.
  apply Rle_trans with (Rabs a * (1 / Rabs a)); [right; field; lra|]. apply Rmult_le_compat_l; lra.
Qed.
Lemma type7_off0 a b c d n u : u <> 0 \/ (0 <= n)%Z ->
  eval_real 7 [IZR n; a; b; c; d] u =
  Some (Fin (if Rlt_dec 0 (b * powerRZ u n + c) then a * log_10 (b * powerRZ u n + c) + d else d)).
Proof.
  intros U. ev. rewrite pow_int by exact U. ar. destruct (Rlt_dec 0 (b * powerRZ u n + c)) as [P|P].
  - rewrite Rltb_t by exact P. cbn [negb]. now rewrite log_fin by exact P.
  - now rewrite Rltb_f by lra.
Qed.
Lemma powerRZ_sign u n : u < 0 -> if Z.even n then 0 < powerRZ u n else powerRZ u n < 0.
Proof.
  intros U. replace u with (-1 * - u) by ring. rewrite powerRZ_mult, minus1. assert (0 < powerRZ (- u) n) by (apply powerRZ_lt; lra).
  destruct (Z.even n); lra.
Qed.
Lemma type7_zero g a b c d :
  steady 7 [g; a; b; c; d] 0 <->
  g = 0 \/ exists n, g = IZR n /\
    ((0 < g /\ (c <> 0 \/ a = 0 \/ b = 0 \/ (b < 0 /\ Z.even n = true))) \/ (g < 0 /\ b < 0 /\ (a = 0 \/ Z.even n = true))).
Proof.
  destruct (whole_dec g) as [(n & ->)|W].
  2:{ split.
      - intros S. exfalso. revert S. apply strays. intros dl D. exists (- dl / 2). split; [lra|]. intros y. rewrite type7_not_real by (lra || assumption). discriminate.
      - intros [->|(n & Q & _)]; [now destruct (W 0%Z)|now destruct (W n)]. }
  destruct (Ztrichotomy n 0) as [N|[->|N]].
  - assert (HN : IZR n < 0) by (now apply (IZR_lt n 0)).
    assert (AT0 : forall y, 0 <= b -> eval_real 7 [IZR n; a; b; c; d] 0 <> Some (Fin y)).
    { intros y B. ev. rewrite pow0_neg by exact HN. cbn [ext_mul ext_sgn]. unfold Reqb. destruct (Req_EM_T b 0); [discriminate|].
      destruct (Req_EM_T 1 0); [lra|]. unfold inf_of. rewrite Rltb_f by lra. cbn [ext_add ext_ge ext_lt negb ext_log10 ext_mul ext_sgn].
      unfold Reqb. destruct (Req_EM_T a 0); [discriminate|]. destruct (Req_EM_T 1 0); [lra|]. unfold inf_of. destruct (Rltb (a * 1) 0); discriminate. }
    destruct (Rlt_dec b 0) as [B|B].
    2:{ split; [intros S; exfalso; revert S; apply not_number; intros y; apply AT0; lra|]. intros [H|(n' & Q & [H|H])]; lra. }
    assert (AT0' : eval_real 7 [IZR n; a; b; c; d] 0 = Some (Fin d)).
    { ev. rewrite pow0_neg by exact HN. cbn [ext_mul ext_sgn]. rewrite Reqb_f by lra. rewrite Reqb_f by lra. unfold inf_of. rewrite Rltb_t by lra. reflexivity. }
    (* how large the power gets *)
    set (K := Rabs c + 1). pose proof (Rabs_pos c) as KC.
    assert (BIG : forall k, 0 < k -> forall u, 0 < u < Rpower k (1 / IZR n) -> k <= powerRZ u n).
    { intros k KP u U. rewrite powerRZ_Rpower by lra. apply Rpower_large; (assumption || lra). }
    set (r := Rpower (K / - b) (1 / IZR n)). assert (RP : 0 < r) by apply Rpower_pos.
    assert (KB : 0 < K / - b) by (apply Rdiv_lt_0_compat; unfold K; lra).
    assert (RIGHT : forall u, 0 < u < r -> b * powerRZ u n + c <= 0).
    { intros u U. pose proof (BIG _ KB u U) as L. assert (L2 : - b * (K / - b) <= - b * powerRZ u n) by (apply Rmult_le_compat_l; lra).
      replace (- b * (K / - b)) with K in L2 by (field; lra). unfold K in L2. pose proof (Rle_abs c). lra. }
    assert (ODDS : forall u, powerRZ (- u) n = (if Z.even n then 1 else -1) * powerRZ u n).
    { intros u. replace (- u) with (-1 * u) by ring. now rewrite powerRZ_mult, minus1. }
    destruct (Req_dec a 0) as [->|A].
    { split; [intros _; right; exists n; split; [reflexivity|right; tauto]|]. intros _.
      apply (smooth _ _ _ 1 (fun _ => d)); [lra| |apply c_const]. intros u U. destruct (Req_dec u 0) as [->|U0]; [exact AT0'|].
      rewrite type7_off0 by now left. do 2 f_equal. destruct (Rlt_dec _ _); [ring|reflexivity]. }
    destruct (Z.even n) eqn:EV.
    + split; [intros _; right; exists n; split; [reflexivity|right; tauto]|]. intros _.
      apply (smooth _ _ _ r (fun _ => d)); [exact RP| |apply c_const]. intros u U. destruct (Rtotal_order u 0) as [L|[->|L]].
      * rewrite type7_off0 by (left; lra). do 2 f_equal. rewrite <- (Ropp_involutive u). rewrite ODDS, Rmult_1_l.
        pose proof (RIGHT (- u) ltac:(lra)). destruct (Rlt_dec _ _); [lra|reflexivity].
      * exact AT0'.
      * rewrite type7_off0 by (left; lra). do 2 f_equal. pose proof (RIGHT u ltac:(lra)). destruct (Rlt_dec _ _); [lra|reflexivity].
    + split.
      2:{ intros [H|(n' & Q & [H|(_ & _ & [H|H])])]; [lra|lra|contradiction|]. apply eq_IZR in Q. subst n'. congruence. }
      intros S. exfalso. revert S. apply (not_steady _ _ _ d 1 AT0'); [lra|]. intros dl D.
      pose proof (Rabs_pos_lt a A) as PA. pose proof ln10_pos as T. set (M := exp (ln 10 / Rabs a)). assert (MP : 0 < M) by apply exp_pos.
      set (k := (M + Rabs c) / - b). assert (KP : 0 < k) by (apply Rdiv_lt_0_compat; lra).
      set (v := Rmin (dl / 2) (Rpower k (1 / IZR n) / 2)). pose proof (Rpower_pos k (1 / IZR n)) as RK.
      assert (VP : 0 < v) by (apply Rmin_pos; lra). pose proof (Rmin_l (dl / 2) (Rpower k (1 / IZR n) / 2)) as V1. pose proof (Rmin_r (dl / 2) (Rpower k (1 / IZR n) / 2)) as V2.
      fold v in V1, V2. exists (- v). split; [lra|]. intros y. rewrite type7_off0 by (left; lra). rewrite ODDS. pose proof (BIG k KP v ltac:(lra)) as L.
      assert (L2 : - b * k <= - b * powerRZ v n) by (apply Rmult_le_compat_l; lra). replace (- b * k) with (M + Rabs c) in L2 by (unfold k; field; lra).
      assert (L3 : M <= b * (-1 * powerRZ v n) + c) by (pose proof (Rle_abs (- c)); rewrite Rabs_Ropp in *; lra).
      set (q := b * (-1 * powerRZ v n) + c) in *. clearbody q. destruct (Rlt_dec 0 q) as [Q|Q]; [|lra]. intros Y. injection Y as <-.
      replace (a * log_10 q + d - d) with (a * log_10 q) by ring. rewrite Rabs_mult.
      assert (L4 : ln 10 / Rabs a <= ln q).
      { rewrite <- (ln_exp (ln 10 / Rabs a)). fold M. destruct L3 as [L3|L3]; [apply Rlt_le; now apply ln_increasing|rewrite L3; lra]. }
      assert (L5 : 1 / Rabs a <= log_10 q).
      { unfold log_10. apply Rmult_le_reg_r with (ln 10); [exact T|]. replace (ln q / ln 10 * ln 10) with (ln q) by (field; lra).
        replace (1 / Rabs a * ln 10) with (ln 10 / Rabs a) by (field; lra). exact L4. }
      assert (L6 : 0 < 1 / Rabs a) by (apply Rdiv_lt_0_compat; lra). rewrite (Rabs_right (log_10 q)) by lra.
      apply Rle_trans with (Rabs a * (1 / Rabs a)); [right; field; lra|]. apply Rmult_le_compat_l; lra.
  - split; [intros _; now left|]. intros _.
    apply (steady_whole _ _ (fun _ => if Rlt_dec 0 (b * 1 + c) then a * log_10 (b * 1 + c) + d else d)); [|apply c_const].
    intros u. rewrite type7_off0 by (right; lia). reflexivity.
  - assert (HP : 0 < IZR n) by (apply (IZR_lt 0); lia). assert (N0 : (0 <= n)%Z) by lia. assert (NP : (0 < n)%Z) by lia.
    set (F := fun u => b * powerRZ u n + c).
    assert (CF : forall u, cont F u). { intros u. apply c_plus; [|apply c_const]. apply c_mult; [apply c_const|]. apply c_powerRZ. now right. }
    assert (F0 : F 0 = c) by (unfold F; rewrite powerRZ_0_pos by exact NP; ring).
    assert (AT : forall u, eval_real 7 [IZR n; a; b; c; d] u = Some (Fin (if Rlt_dec 0 (F u) then a * log_10 (F u) + d else d))) by (intros u; apply type7_off0; now right).
    destruct (Rtotal_order c 0) as [C|[C|C]].
    + split; [intros _; right; exists n; split; [reflexivity|left; split; [exact HP|left; lra]]|]. intros _.
      destruct (near_neg F 0 (CF 0) ltac:(lra)) as (dl & D & K). apply (smooth _ _ _ dl (fun _ => d)); [exact D| |apply c_const].
      intros u U. rewrite AT. specialize (K u U). destruct (Rlt_dec 0 (F u)); [lra|reflexivity].
    + assert (DEC : a = 0 \/ b = 0 \/ (b < 0 /\ Z.even n = true) \/ (a <> 0 /\ (0 < b \/ (b < 0 /\ Z.even n = false)))).
      { destruct (Req_dec a 0); [tauto|]. destruct (Rtotal_order b 0) as [|[|]]; [|tauto|tauto]. destruct (Z.even n); tauto. }
      destruct DEC as [A|[B|[(B & EV)|(A & B)]]].
      * split; [intros _; right; exists n; split; [reflexivity|left; tauto]|]. intros _. apply (steady_whole _ _ (fun _ => d)); [|apply c_const].
        intros u. rewrite AT, A. do 2 f_equal. destruct (Rlt_dec 0 (F u)); [ring|reflexivity].
      * split; [intros _; right; exists n; split; [reflexivity|left; tauto]|]. intros _. apply (steady_whole _ _ (fun _ => d)); [|apply c_const].
        intros u. rewrite AT. do 2 f_equal. assert (Z : F u = 0) by (unfold F; rewrite B, C; ring). rewrite Z. destruct (Rlt_dec 0 0); [lra|reflexivity].
      * split; [intros _; right; exists n; split; [reflexivity|left; tauto]|]. intros _. apply (steady_whole _ _ (fun _ => d)); [|apply c_const].
        intros u. rewrite AT. do 2 f_equal. assert (Z : F u <= 0); [|destruct (Rlt_dec 0 (F u)); [lra|reflexivity]].
        unfold F. rewrite C, Rplus_0_r. assert (PU : 0 <= powerRZ u n).
        { destruct (Rtotal_order u 0) as [L|[->|L]]; [pose proof (powerRZ_sign u n L) as Q; rewrite EV in Q; lra|rewrite powerRZ_0_pos by exact NP; lra|].
          apply Rlt_le. now apply powerRZ_lt. }
        assert (0 <= - b * powerRZ u n) by (apply Rmult_le_pos; lra). lra.
      * split.
        2:{ intros [H|(n' & Q & [(_ & [H|[H|[H|(H & EV)]]])|H])]; try lra; try contradiction. apply eq_IZR in Q. subst n'. destruct B as [B|(_ & B)]; [lra|congruence]. }
        intros S. exfalso. assert (V0 : eval_real 7 [IZR n; a; b; c; d] 0 = Some (Fin d)).
        { rewrite AT. rewrite F0. destruct (Rlt_dec 0 c); [lra|reflexivity]. }
        revert S. apply (not_steady _ _ _ d 1 V0); [lra|]. intros dl D.
        destruct (log_falls F a d 0 A (CF 0) ltac:(lra)) with (dl := dl) as (u & U & P & L); [|exact D|].
        -- intros dl' D'. destruct B as [B|(B & EV)].
           ++ exists (dl' / 2). split; [lra|]. unfold F. rewrite C, Rplus_0_r. apply Rmult_lt_0_compat; [exact B|]. apply powerRZ_lt. lra.
           ++ exists (- dl' / 2). split; [lra|]. unfold F. rewrite C, Rplus_0_r. pose proof (powerRZ_sign (- dl' / 2) n ltac:(lra)) as Q. rewrite EV in Q.
              assert (0 < - b * - powerRZ (- dl' / 2) n) by (apply Rmult_lt_0_compat; lra). lra.
        -- exists u. split; [exact U|]. intros y Y. rewrite AT in Y. destruct (Rlt_dec 0 (F u)); [|lra]. injection Y as <-. exact L.
    + split; [intros _; right; exists n; split; [reflexivity|left; split; [exact HP|left; lra]]|]. intros _.
      destruct (near_pos F 0 (CF 0) ltac:(lra)) as (dl & D & K). apply (smooth _ _ _ dl (fun u => a * log_10 (F u) + d)); [exact D| |].
      * intros u U. rewrite AT. specialize (K u U). destruct (Rlt_dec 0 (F u)); [reflexivity|lra].
      * apply c_plus; [|apply c_const]. apply c_mult; [apply c_const|]. apply c_log; [apply CF|lra].
Qed.
