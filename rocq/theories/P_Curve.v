(** Proofs about parametric curves (C50-C64). *)
From Coq Require Import Reals Lra Psatz.
From Verif Require Import M_Base M_Curve M_CurveReal S_Curve.
Open Scope R_scope.

(** ** Deciding comparisons *)
Lemma Rltb_t x y : x < y -> Rltb x y = true.
Proof. intros H. unfold Rltb. destruct (Rlt_dec x y); [reflexivity|contradiction]. Qed.
Lemma Rltb_f x y : y <= x -> Rltb x y = false.
Proof. intros H. unfold Rltb. destruct (Rlt_dec x y); [lra|reflexivity]. Qed.
Lemma Reqb_t x y : x = y -> Reqb x y = true.
Proof. intros H. unfold Reqb. destruct (Req_EM_T x y); [reflexivity|contradiction]. Qed.
Lemma Reqb_f x y : x <> y -> Reqb x y = false.
Proof. intros H. unfold Reqb. destruct (Req_EM_T x y); [contradiction|reflexivity]. Qed.

Lemma lt_fin x y : ext_lt (Fin x) (Fin y) = Rltb x y.
Proof. reflexivity. Qed.
Lemma ge_fin x y : ext_ge (Fin x) (Fin y) = negb (Rltb x y).
Proof. reflexivity. Qed.
Lemma add_fin x y : ext_add (Fin x) (Fin y) = Fin (x + y). Proof. reflexivity. Qed.
Lemma sub_fin x y : ext_sub (Fin x) (Fin y) = Fin (x - y). Proof. reflexivity. Qed.
Lemma mul_fin x y : ext_mul (Fin x) (Fin y) = Fin (x * y). Proof. reflexivity. Qed.
Lemma neg_fin x : ext_neg (Fin x) = Fin (- x). Proof. reflexivity. Qed.
Lemma abs_fin x : ext_abs (Fin x) = Fin (Rabs x). Proof. reflexivity. Qed.
Lemma exp_fin x : ext_exp (Fin x) = Fin (exp x). Proof. reflexivity. Qed.
Lemma div_fin x y : y <> 0 -> ext_div (Fin x) (Fin y) = Fin (x / y).
Proof. intros H. cbn. now rewrite Reqb_f. Qed.
Lemma max_fin x y : ext_max (Fin x) (Fin y) = Fin (Rmax x y).
Proof.
  cbn. unfold Rltb. destruct (Rlt_dec x y); f_equal; unfold Rmax; destruct (Rle_dec x y); lra.
Qed.
Lemma log_fin x : 0 < x -> ext_log10 (Fin x) = Fin (log_10 x).
Proof. intros H. cbn. now rewrite Rltb_t. Qed.

(** ** Powers *)
Lemma power_pos x y : 0 < x -> power x y = Rpower x y.
Proof. intros H. unfold power. destruct (Req_EM_T x 0); [lra|reflexivity]. Qed.
Lemma power_0 y : power 0 y = 0.
Proof. unfold power. destruct (Req_EM_T 0 0); [reflexivity|lra]. Qed.
Lemma Rpower_pos x y : 0 < Rpower x y.
Proof. unfold Rpower. apply exp_pos. Qed.
Lemma power_gt0 x y : 0 < x -> 0 < power x y.
Proof. intros H. rewrite power_pos by exact H. apply Rpower_pos. Qed.
Lemma power_ge0 x y : 0 <= power x y.
Proof. unfold power. destruct (Req_EM_T x 0); [lra|]. left. apply Rpower_pos. Qed.

Lemma pow_fin x y : 0 < x -> ext_pow (Fin x) (Fin y) = Fin (power x y).
Proof.
  intros H. cbn. rewrite power_pos by exact H. unfold Reqb. destruct (Req_EM_T y 0) as [->|N].
  - f_equal. unfold Rpower. rewrite Rmult_0_l. symmetry. apply exp_0.
  - now rewrite Rltb_t.
Qed.
Lemma pow_fin0 x y : 0 <= x -> 0 < y -> ext_pow (Fin x) (Fin y) = Fin (power x y).
Proof.
  intros H Hy. destruct (Req_dec x 0) as [->|N]; [|apply pow_fin; lra].
  cbn. rewrite power_0. rewrite (Reqb_f y) by lra. rewrite Rltb_f by lra. rewrite Reqb_t by reflexivity. now rewrite Rltb_t.
Qed.
Lemma power_1 x : 0 <= x -> power x 1 = x.
Proof. intros [H| <-]; [rewrite power_pos by exact H; now apply Rpower_1|apply power_0]. Qed.
Lemma power_1l y : power 1 y = 1.
Proof. rewrite power_pos by lra. unfold Rpower. rewrite ln_1, Rmult_0_r. apply exp_0. Qed.
Lemma power_mult x y z : 0 <= x -> power (power x y) z = power x (y * z).
Proof.
  intros [H| <-]; [|now rewrite !power_0]. rewrite (power_pos x y H), (power_pos x _ H).
  rewrite power_pos by apply Rpower_pos. apply Rpower_mult.
Qed.
Lemma power_undo x g : 0 <= x -> g <> 0 -> power (power x g) (1 / g) = x.
Proof. intros H N. rewrite power_mult by exact H. replace (g * (1 / g)) with 1 by (field; exact N). now apply power_1. Qed.
Lemma power_undo' x g : 0 <= x -> g <> 0 -> power (power x (1 / g)) g = x.
Proof. intros H N. rewrite power_mult by exact H. replace (1 / g * g) with 1 by (field; exact N). now apply power_1. Qed.
Lemma power_lt x x' g : 0 <= x < x' -> 0 < g -> power x g < power x' g.
Proof.
  intros (H & L) G. destruct H as [H| <-].
  - rewrite !power_pos by lra. unfold Rpower. apply exp_increasing. apply Rmult_lt_compat_l; [exact G|]. apply ln_increasing; lra.
  - rewrite power_0. apply power_gt0. lra.
Qed.
Lemma power_le x x' g : 0 <= x <= x' -> 0 < g -> power x g <= power x' g.
Proof. intros (H & [L| <-]) G; [left; apply power_lt; lra|lra]. Qed.

(** ** Evaluating *)
Lemma lit_0 : ext_lit L0 = Fin 0. Proof. reflexivity. Qed.
Lemma lit_half : ext_lit Lhalf = Fin (/ 2). Proof. reflexivity. Qed.
Lemma lit_1 : ext_lit L1 = Fin 1. Proof. reflexivity. Qed.
Lemma lit_2 : ext_lit L2 = Fin 2. Proof. reflexivity. Qed.
Lemma lit_10 : ext_lit L10 = Fin 10. Proof. reflexivity. Qed.
Lemma lit_tol : ext_lit Ltol = Fin tol. Proof. reflexivity. Qed.
Ltac ar := rewrite ?lit_0, ?lit_half, ?lit_1, ?lit_2, ?lit_10, ?lit_tol;
  repeat (rewrite ?abs_fin, ?neg_fin, ?exp_fin, ?add_fin, ?sub_fin, ?mul_fin, ?lt_fin, ?ge_fin;
          match goal with
          | |- context [ext_add (Fin _) (Fin _)] => idtac
          | |- context [ext_sub (Fin _) (Fin _)] => idtac
          | |- context [ext_mul (Fin _) (Fin _)] => idtac
          | |- context [ext_neg (Fin _)] => idtac
          | |- context [ext_abs (Fin _)] => idtac
          | |- context [ext_exp (Fin _)] => idtac
          | |- context [ext_lt (Fin _) (Fin _)] => idtac
          | |- context [ext_ge (Fin _) (Fin _)] => idtac
          end);
  rewrite ?abs_fin, ?neg_fin, ?exp_fin, ?add_fin, ?sub_fin, ?mul_fin, ?lt_fin, ?ge_fin.
Ltac ev := unfold eval_real, eval_ext, eval_parametric; cbn [map nth_error ext_ops f_lit f_neg f_abs f_add f_sub f_mul f_div
  f_lt f_ge f_max f_pow f_log10 f_exp]; ar.

Lemma tol_pos : 0 < tol. Proof. unfold tol. lra. Qed.
Lemma small_abs x : tol <= Rabs x -> Rltb (Rabs x) tol = false.
Proof. apply Rltb_f. Qed.
Lemma abs_ge_pos x : tol <= x -> tol <= Rabs x.
Proof. intros H. pose proof tol_pos. rewrite Rabs_right by lra. exact H. Qed.
Lemma abs_nz x : tol <= Rabs x -> x <> 0.
Proof. intros H ->. rewrite Rabs_R0 in H. pose proof tol_pos. lra. Qed.

(** Type 1 *)
Lemma type1_val g r : 0 < r \/ (r = 0 /\ 0 < g) -> eval_real 1 [g] r = Some (Fin (power r g)).
Proof.
  intros H. ev. rewrite Rltb_f by (destruct H; lra). f_equal.
  destruct H as [H|(-> & H)]; [now apply pow_fin|now apply pow_fin0; [lra|]].
Qed.
Lemma type1_inverse g r : tol <= Rabs g -> 0 < r \/ (r = 0 /\ 0 < g) ->
  exists y, eval_real 1 [g] r = Some (Fin y) /\ y = power r g /\ eval_real (-1) [g] y = Some (Fin r).
Proof.
  intros G H. pose proof (abs_nz g G) as NZ. exists (power r g). split; [now apply type1_val|]. split; [reflexivity|].
  ev. rewrite Rltb_f by apply power_ge0. rewrite small_abs by exact G. rewrite div_fin by exact NZ. f_equal.
  destruct H as [H|(-> & H)].
  - rewrite pow_fin by (now apply power_gt0). now rewrite power_undo by lra.
  - rewrite power_0. rewrite pow_fin0; [now rewrite power_0|lra|]. apply Rdiv_lt_0_compat; lra.
Qed.

(** Type 2 *)
Lemma type2_inverse g a b r : tol <= Rabs g -> tol <= a -> 0 <= r -> 0 < a * r + b ->
  exists y, eval_real 2 [g; a; b] r = Some (Fin y) /\ y = power (a * r + b) g /\ eval_real (-2) [g; a; b] y = Some (Fin r).
Proof.
  intros G A R0 E. pose proof tol_pos as T. pose proof (abs_nz g G) as NZ. exists (power (a * r + b) g).
  split; [|split; [reflexivity|]].
  - ev. rewrite small_abs by (now apply abs_ge_pos). rewrite div_fin by lra. ar.
    assert (L : - b / a <= r) by (apply Rmult_le_reg_r with a; [lra|]; replace (- b / a * a) with (- b) by (field; lra); lra).
    rewrite (Rltb_f r) by exact L. cbn [negb]. rewrite (Rltb_t 0) by exact E. now rewrite pow_fin by exact E.
  - ev. rewrite !small_abs by (try exact G; now apply abs_ge_pos). cbn [orb].
    rewrite Rltb_f by apply power_ge0. rewrite div_fin by exact NZ. rewrite pow_fin by (now apply power_gt0).
    rewrite power_undo by lra. ar. rewrite div_fin by lra.
    replace ((a * r + b - b) / a) with r by (field; lra). ar. now rewrite Rltb_f by lra.
Qed.

(** Type 3 *)
Lemma type3_inverse g a b c r : g <> 0 -> tol <= a -> 0 <= r -> 0 < a * r + b ->
  exists y, eval_real 3 [g; a; b; c] r = Some (Fin y) /\ y = power (a * r + b) g + c /\
    eval_real (-3) [g; a; b; c] y = Some (Fin r).
Proof.
  intros NZ A R0 E. pose proof tol_pos as T. exists (power (a * r + b) g + c).
  pose proof (power_gt0 _ g E) as PG.
  split; [|split; [reflexivity|]].
  - ev. rewrite small_abs by (now apply abs_ge_pos). rewrite div_fin by lra. rewrite max_fin. ar.
    assert (L : - b / a <= r) by (apply Rmult_le_reg_r with a; [lra|]; replace (- b / a * a) with (- b) by (field; lra); lra).
    rewrite (Rltb_f r) by (apply Rmax_lub; lra). cbn [negb]. rewrite (Rltb_t 0) by exact E. now rewrite pow_fin by exact E.
  - ev. rewrite small_abs by (now apply abs_ge_pos). rewrite (Rltb_f _ c) by lra. cbn [negb]. rewrite Rltb_t by lra.
    rewrite div_fin by exact NZ. rewrite pow_fin by lra.
    replace (power (a * r + b) g + c - c) with (power (a * r + b) g) by ring.
    rewrite power_undo by lra. ar. rewrite div_fin by lra. do 2 f_equal. field. lra.
Qed.
(** Below the break the curve is flat and information is lost. *)
Lemma type3_flat g a b c r : tol <= a -> r < Rmax (- b / a) 0 ->
  eval_real 3 [g; a; b; c] r = Some (Fin c) /\ eval_real (-3) [g; a; b; c] c = Some (Fin 0).
Proof.
  intros A L. pose proof tol_pos as T. split.
  - ev. rewrite small_abs by (now apply abs_ge_pos). rewrite div_fin by lra. rewrite max_fin. ar. now rewrite (Rltb_t r) by exact L.
  - ev. rewrite small_abs by (now apply abs_ge_pos). rewrite (Rltb_f c c) by lra. cbn [negb]. now rewrite Rltb_f by lra.
Qed.

(** Type 4 *)
Lemma type4_upper g a b c d r : 0 < g -> d <= r -> 0 <= a * r + b ->
  eval_real 4 [g; a; b; c; d] r = Some (Fin (power (a * r + b) g)).
Proof.
  intros G L E. ev. rewrite (Rltb_f r) by exact L. cbn [negb]. destruct E as [E|E].
  - rewrite (Rltb_t 0) by exact E. now rewrite pow_fin by exact E.
  - rewrite <- E, power_0. now rewrite Rltb_f by lra.
Qed.
Lemma type4_lower g a b c d r : r < d -> eval_real 4 [g; a; b; c; d] r = Some (Fin (r * c)).
Proof. intros L. ev. now rewrite (Rltb_t r) by exact L. Qed.

Lemma type4_inverse g a b c d r : tol <= g -> tol <= a -> tol <= c -> c * d <= break_value g a b d ->
  (d <= r -> 0 <= a * r + b) ->
  exists y, eval_real 4 [g; a; b; c; d] r = Some (Fin y) /\ y = (if Rle_dec d r then power (a * r + b) g else c * r) /\
    eval_real (-4) [g; a; b; c; d] y = Some (Fin r).
Proof.
  intros G A C BR E. pose proof tol_pos as T.
  assert (D : exists disc, disc = break_value g a b d /\
     (if ext_lt (Fin (a * d + b)) (Fin 0) then Fin 0 else ext_pow (Fin (a * d + b)) (Fin g)) = Fin disc).
  { exists (break_value g a b d). split; [reflexivity|]. rewrite lt_fin. unfold break_value.
    destruct (Rlt_dec (a * d + b) 0) as [N|N].
    - rewrite Rltb_t by exact N. rewrite Rmax_left by lra. now rewrite power_0.
    - rewrite Rltb_f by lra. rewrite Rmax_right by lra. apply pow_fin0; lra. }
  destruct D as (disc & ED & D). destruct (Rle_dec d r) as [L|L].
  - exists (power (a * r + b) g). split; [now apply type4_upper; [lra| |apply E]|]. split; [reflexivity|].
    specialize (E L). ev. ev. rewrite lt_fin in D. rewrite D. ar.
    assert (LD : disc <= power (a * r + b) g).
    { rewrite ED. unfold break_value. apply power_le; [|lra]. split; [apply Rmax_l|]. apply Rmax_lub; [exact E|].
      assert (a * d <= a * r) by (apply Rmult_le_compat_l; lra). lra. }
    rewrite (Rltb_f _ disc) by exact LD. cbn [negb]. rewrite !small_abs by (apply abs_ge_pos; assumption). cbn [orb].
    rewrite div_fin by lra. rewrite pow_fin0; [|apply power_ge0|apply Rdiv_lt_0_compat; lra].
    rewrite power_undo by lra. ar. rewrite div_fin by lra. do 2 f_equal. field. lra.
  - exists (r * c). split; [apply type4_lower; lra|]. split; [ring|].
    ev. rewrite lt_fin in D. rewrite D. ar.
    assert (LD : r * c < disc).
    { rewrite ED. eapply Rlt_le_trans; [|exact BR]. rewrite Rmult_comm. apply Rmult_lt_compat_l; lra. }
    rewrite (Rltb_t _ disc) by exact LD. cbn [negb]. rewrite small_abs by (apply abs_ge_pos; assumption).
    rewrite div_fin by lra. do 2 f_equal. field. lra.
Qed.

(** Type 5 *)
Lemma type5_inverse g a b c d e f r : tol <= g -> tol <= a -> tol <= c -> c * d + f <= break_value g a b d + e ->
  (d <= r -> 0 <= a * r + b) ->
  exists y, eval_real 5 [g; a; b; c; d; e; f] r = Some (Fin y) /\
    y = (if Rle_dec d r then power (a * r + b) g + e else c * r + f) /\
    eval_real (-5) [g; a; b; c; d; e; f] y = Some (Fin r).
Proof.
  intros G A C BR E. pose proof tol_pos as T. destruct (Rle_dec d r) as [L|L].
  - specialize (E L). exists (power (a * r + b) g + e). split; [|split; [reflexivity|]].
    + ev. rewrite (Rltb_f r) by exact L. cbn [negb]. destruct E as [E|E].
      * rewrite (Rltb_t 0) by exact E. now rewrite pow_fin by exact E.
      * rewrite <- E, power_0. rewrite Rltb_f by lra. do 2 f_equal. ring.
    + ev. assert (LD : break_value g a b d <= power (a * r + b) g).
      { unfold break_value. apply power_le; [|lra]. split; [apply Rmax_l|]. apply Rmax_lub; [exact E|].
        assert (a * d <= a * r) by (apply Rmult_le_compat_l; lra). lra. }
      rewrite (Rltb_f _ (c * d + f)) by lra. cbn [negb].
      replace (power (a * r + b) g + e - e) with (power (a * r + b) g) by ring.
      rewrite Rltb_f by apply power_ge0. rewrite !small_abs by (apply abs_ge_pos; assumption). cbn [orb].
      rewrite div_fin by lra. rewrite pow_fin0; [|apply power_ge0|apply Rdiv_lt_0_compat; lra].
      rewrite power_undo by lra. ar. rewrite div_fin by lra. do 2 f_equal. field. lra.
  - exists (r * c + f). split; [|split; [ring|]].
    + ev. now rewrite (Rltb_t r) by lra.
    + ev. assert (r * c < c * d) by (rewrite Rmult_comm; apply Rmult_lt_compat_l; lra).
      rewrite (Rltb_t _ (c * d + f)) by lra. cbn [negb]. rewrite small_abs by (apply abs_ge_pos; assumption).
      rewrite div_fin by lra. do 2 f_equal. field. lra.
Qed.

(** Type 6 *)
Lemma type6_inverse g a b c r : tol <= Rabs a -> (0 < a * r + b /\ g <> 0) \/ (a * r + b = 0 /\ 0 < g) ->
  exists y, eval_real 6 [g; a; b; c] r = Some (Fin y) /\ y = power (a * r + b) g + c /\
    eval_real (-6) [g; a; b; c] y = Some (Fin r).
Proof.
  intros A E. pose proof (abs_nz a A) as NA. assert (NG : g <> 0) by (destruct E; lra).
  assert (E0 : 0 <= a * r + b) by (destruct E; lra). exists (power (a * r + b) g + c). split; [|split; [reflexivity|]].
  - ev. rewrite Rltb_f by exact E0. destruct E as [(E & _)|(E & G)]; [now rewrite pow_fin|now rewrite pow_fin0].
  - ev. rewrite small_abs by exact A. replace (power (a * r + b) g + c - c) with (power (a * r + b) g) by ring.
    rewrite Rltb_f by apply power_ge0. rewrite div_fin by exact NG.
    assert (P : ext_pow (Fin (power (a * r + b) g)) (Fin (1 / g)) = Fin (a * r + b)).
    { destruct E as [(E & _)|(E & G)].
      - rewrite pow_fin by (now apply power_gt0). now rewrite power_undo by lra.
      - rewrite pow_fin0; [|apply power_ge0|apply Rdiv_lt_0_compat; lra]. now rewrite power_undo by lra. }
    rewrite P. ar. rewrite div_fin by exact NA. do 2 f_equal. field. exact NA.
Qed.

(** Type 7 *)
Lemma ln10_pos : 0 < ln 10.
Proof. rewrite <- ln_1. apply ln_increasing; lra. Qed.
Lemma ten_log x : 0 < x -> power 10 (log_10 x) = x.
Proof.
  intros H. rewrite power_pos by lra. unfold Rpower, log_10. pose proof ln10_pos.
  replace (ln x / ln 10 * ln 10) with (ln x) by (field; lra). now apply exp_ln.
Qed.
Lemma type7_inverse g a b c d r : tol <= g -> tol <= a -> tol <= b -> 0 <= r -> 0 < b * power r g + c ->
  exists y, eval_real 7 [g; a; b; c; d] r = Some (Fin y) /\ y = a * log_10 (b * power r g + c) + d /\
    eval_real (-7) [g; a; b; c; d] y = Some (Fin r).
Proof.
  intros G A B R0 E. pose proof tol_pos as T. exists (a * log_10 (b * power r g + c) + d). split; [|split; [reflexivity|]].
  - ev. rewrite pow_fin0 by lra. ar. rewrite (Rltb_t 0) by exact E. cbn [negb]. now rewrite log_fin by exact E.
  - ev. rewrite !Rltb_f by assumption. cbn [orb]. rewrite div_fin by lra.
    replace ((a * log_10 (b * power r g + c) + d - d) / a) with (log_10 (b * power r g + c)) by (field; lra).
    rewrite pow_fin by lra. rewrite ten_log by exact E. ar. rewrite div_fin by lra.
    replace ((b * power r g + c - c) / b) with (power r g) by (field; lra). rewrite div_fin by lra.
    rewrite pow_fin0; [|apply power_ge0|apply Rdiv_lt_0_compat; lra]. now rewrite power_undo by lra.
Qed.

(** Type 8 *)
Lemma log_nz b : 0 < b -> b <> 1 -> log_10 b <> 0.
Proof.
  intros H N E. unfold log_10 in E. pose proof ln10_pos.
  assert (L : ln b = 0). { replace (ln b) with (ln b / ln 10 * ln 10) by (field; lra). rewrite E. ring. }
  apply N. apply ln_inv; [exact H|lra|]. now rewrite ln_1.
Qed.
Lemma type8_inverse a b c d e r : tol <= a -> 0 < b -> b <> 1 -> tol <= Rabs c ->
  exists y, eval_real 8 [a; b; c; d; e] r = Some (Fin y) /\ y = a * power b (c * r + d) + e /\
    eval_real (-8) [a; b; c; d; e] y = Some (Fin r).
Proof.
  intros A B B1 C. pose proof tol_pos as T. pose proof (abs_nz c C) as NC. exists (a * power b (c * r + d) + e).
  pose proof (power_gt0 b (c * r + d) B) as PG. split; [|split; [reflexivity|]].
  - ev. now rewrite pow_fin by exact B.
  - ev. replace (a * power b (c * r + d) + e - e) with (a * power b (c * r + d)) by ring.
    assert (0 < a * power b (c * r + d)) by (apply Rmult_lt_0_compat; lra).
    rewrite Rltb_f by lra. rewrite !small_abs by (try exact C; now apply abs_ge_pos). cbn [orb].
    rewrite div_fin by lra. replace (a * power b (c * r + d) / a) with (power b (c * r + d)) by (field; lra).
    rewrite !log_fin by assumption. rewrite div_fin by (now apply log_nz).
    assert (L : log_10 (power b (c * r + d)) / log_10 b = c * r + d).
    { rewrite power_pos by exact B. unfold log_10 at 1, Rpower. rewrite ln_exp. pose proof (log_nz b B B1) as LN.
      unfold log_10 in *. pose proof ln10_pos. assert (LB : ln b <> 0) by (intros Z; apply LN; rewrite Z; unfold Rdiv; ring).
      field. repeat split; try assumption; lra. }
    rewrite L. ar. rewrite div_fin by exact NC. do 2 f_equal. field. exact NC.
Qed.

(** Type 108 *)
Lemma power_unit x g : 0 <= x <= 1 -> 0 < g -> 0 <= power x g <= 1.
Proof. intros H G. split; [apply power_ge0|]. rewrite <- (power_1l g). apply power_le; lra. Qed.
Lemma type108_val g r : tol <= g -> 0 <= r <= 1 -> eval_real 108 [g] r = Some (Fin (s_curve g r)).
Proof.
  intros G R0. pose proof tol_pos as T. ev. rewrite small_abs by (now apply abs_ge_pos). rewrite div_fin by lra.
  assert (I : 0 < 1 / g) by (apply Rdiv_lt_0_compat; lra).
  rewrite pow_fin0 by lra. ar. rewrite pow_fin0; [reflexivity| |exact I].
  pose proof (power_unit (1 - r) (1 / g) ltac:(lra) I). lra.
Qed.
Lemma type108_inverse g r : tol <= g -> 0 <= r <= 1 ->
  exists y, eval_real 108 [g] r = Some (Fin y) /\ y = s_curve g r /\ eval_real (-108) [g] y = Some (Fin r).
Proof.
  intros G R0. pose proof tol_pos as T. exists (s_curve g r). split; [now apply type108_val|]. split; [reflexivity|].
  assert (I : 0 < 1 / g) by (apply Rdiv_lt_0_compat; lra).
  pose proof (power_unit (1 - r) (1 / g) ltac:(lra) I) as U.
  ev. unfold s_curve. rewrite pow_fin0; [|apply power_ge0|lra]. rewrite power_undo' by lra. ar.
  replace (1 - (1 - power (1 - r) (1 / g))) with (power (1 - r) (1 / g)) by ring.
  rewrite pow_fin0; [|apply power_ge0|lra]. rewrite power_undo' by lra. ar. do 2 f_equal. ring.
Qed.

(** Type 109 *)
Lemma logistic_den k t : 0 < 1 + exp (- k * t).
Proof. pose proof (exp_pos (- k * t)). lra. Qed.
Lemma base_val k t : sigmoid_base ext_ops (Fin k) (Fin t) = Fin (logistic k t).
Proof.
  unfold sigmoid_base. cbn [ext_ops f_lit f_neg f_add f_sub f_mul f_div f_exp]. ar.
  pose proof (logistic_den k t). rewrite div_fin by lra. reflexivity.
Qed.
Lemma logistic_inc k t t' : 0 < k -> t < t' -> logistic k t < logistic k t'.
Proof.
  intros K L. unfold logistic. assert (exp (- k * t') < exp (- k * t)).
  { apply exp_increasing. apply Ropp_lt_cancel. replace (- (- k * t)) with (k * t) by ring. replace (- (- k * t')) with (k * t') by ring.
    now apply Rmult_lt_compat_l. }
  pose proof (logistic_den k t). pose proof (logistic_den k t').
  assert (1 / (1 + exp (- k * t)) < 1 / (1 + exp (- k * t'))); [|lra].
  unfold Rdiv. rewrite !Rmult_1_l. apply Rinv_lt_contravar; [now apply Rmult_lt_0_compat|lra].
Qed.
Lemma logistic_odd k t : logistic k (- t) = - logistic k t.
Proof.
  unfold logistic. replace (- k * - t) with (- (- k * t)) by ring. rewrite exp_Ropp.
  pose proof (exp_pos (- k * t)) as P. field. split; lra.
Qed.
Lemma logistic_flip k t : logistic (- k) t = logistic k (- t).
Proof. unfold logistic. now replace (- - k * t) with (- k * - t) by ring. Qed.
Lemma logistic_0 k : logistic k 0 = 0.
Proof. unfold logistic. rewrite Rmult_0_r, exp_0. lra. Qed.
Lemma logistic_1_nz k : k <> 0 -> logistic k 1 <> 0.
Proof.
  intros N. destruct (Rlt_le_dec 0 k) as [P|P].
  - pose proof (logistic_inc k 0 1 P ltac:(lra)) as L. rewrite logistic_0 in L. lra.
  - assert (P' : 0 < - k) by lra. pose proof (logistic_inc (- k) 0 1 P' ltac:(lra)) as L.
    rewrite logistic_0, logistic_flip, logistic_odd in L. lra.
Qed.
Lemma type109_val k r : k <> 0 -> eval_real 109 [k] r = Some (Fin (sigmoid k r)).
Proof.
  intros N. pose proof (logistic_1_nz k N) as L. ev. unfold sigmoid_factory.
  cbn [ext_ops f_lit f_neg f_add f_sub f_mul f_div f_exp]. ar.
  change (f_lit ext_ops L1) with (Fin 1). rewrite !base_val. rewrite div_fin by exact L. reflexivity.
Qed.
Lemma type109_wrong_inverse k r : k <> 0 ->
  exists y, eval_real 109 [k] r = Some (Fin y) /\ y = sigmoid k r /\
    eval_real (-109) [k] y = Some (Fin (((2 * r - 1) / ln 10 + 1) / 2)).
Proof.
  intros N. exists (sigmoid k r). split; [now apply type109_val|]. split; [reflexivity|].
  pose proof (logistic_1_nz k N) as L. ev. unfold inverted_sigmoid_factory, inverted_sigmoid_base.
  cbn [ext_ops f_lit f_neg f_add f_sub f_mul f_div f_exp f_log10]. ar.
  change (f_lit ext_ops L1) with (Fin 1). rewrite base_val. rewrite div_fin by exact L. 
  assert (C : / 2 / logistic k 1 <> 0).
  { unfold Rdiv. apply Rmult_integral_contrapositive_currified; [lra|]. now apply Rinv_neq_0_compat. }
  rewrite div_fin by exact C.
  replace ((sigmoid k r - / 2) / (/ 2 / logistic k 1)) with (logistic k (2 * r - 1)) by (unfold sigmoid; field; exact L).
  ar. set (t := 2 * r - 1). pose proof (logistic_den k t) as D.
  replace (logistic k t + / 2) with (1 / (1 + exp (- k * t))) by (unfold logistic; ring).
  assert (I : 0 < 1 / (1 + exp (- k * t))) by (apply Rdiv_lt_0_compat; lra).
  rewrite div_fin by lra. ar.
  replace (1 / (1 / (1 + exp (- k * t))) - 1) with (exp (- k * t)) by (field; lra).
  rewrite log_fin by apply exp_pos. unfold log_10. rewrite ln_exp. ar. rewrite div_fin by exact N. ar.
  rewrite div_fin by lra. do 2 f_equal. pose proof ln10_pos. field. split; [lra|exact N].
Qed.
Lemma ln10_gt1 : 1 < ln 10.
Proof.
  rewrite <- (ln_exp 1). apply ln_increasing; [apply exp_pos|]. pose proof exp_le_3. lra.
Qed.
Lemma type109_inverts_only_at_half k r : k <> 0 ->
  (eval_real 109 [k] r = Some (Fin (sigmoid k r)) /\
   (eval_real (-109) [k] (sigmoid k r) = Some (Fin r) <-> r = / 2)).
Proof.
  intros N. destruct (type109_wrong_inverse k r N) as (y & E & -> & E'). split; [exact E|]. rewrite E'.
  pose proof ln10_gt1 as L. split.
  - intros H. assert (H' : ((2 * r - 1) / ln 10 + 1) / 2 = r) by congruence.
    assert (Q : (2 * r - 1) / ln 10 = 2 * r - 1) by lra.
    assert (Q' : (2 * r - 1) * (ln 10 - 1) = 0).
    { replace ((2 * r - 1) * (ln 10 - 1)) with ((2 * r - 1) * ln 10 - (2 * r - 1)) by ring. rewrite <- Q at 1. field. lra. }
    apply Rmult_integral in Q'. destruct Q'; lra.
  - intros ->. do 2 f_equal. field. lra.
Qed.

(** ** C62 *)
Lemma type1_negative g r : r < 0 ->
  eval_real 1 [g] r = Some (Fin (if Rlt_dec (Rabs g) (1 + tol) then r else 0)) /\
  eval_real (-1) [g] r = Some (Fin (if Rlt_dec (Rabs (g - 1)) tol then r else 0)).
Proof.
  intros H. split.
  - ev. rewrite Rltb_t by exact H. destruct (Rlt_dec (Rabs g) (1 + tol)); [now rewrite Rltb_t by lra|now rewrite Rltb_f by lra].
  - ev. rewrite Rltb_t by exact H. destruct (Rlt_dec (Rabs (g - 1)) tol); [now rewrite Rltb_t by lra|now rewrite Rltb_f by lra].
Qed.
Lemma type1_negative_disagree g r : r < 0 ->
  (eval_real 1 [g] r <> eval_real (-1) [g] r <-> - (1 + tol) < g <= 1 - tol).
Proof.
  intros H. destruct (type1_negative g r H) as (-> & ->). pose proof tol_pos.
  destruct (Rlt_dec (Rabs g) (1 + tol)) as [A|A], (Rlt_dec (Rabs (g - 1)) tol) as [B|B];
    repeat match goal with
    | H : Rabs _ < _ |- _ => apply Rabs_def2 in H
    end.
  - split; [intros X; now contradict X|lra].
  - split; [|intros _ X; assert (r = 0) by congruence; lra]. intros _. split; [lra|].
    destruct (Rle_lt_dec g (1 - tol)); [assumption|]. exfalso. apply B. apply Rabs_def1; lra.
  - exfalso. apply A. apply Rabs_def1; lra.
  - split; [intros X; now contradict X|]. intros (X & Y). exfalso. apply A. unfold tol in *. apply Rabs_def1; lra.
Qed.

(** ** C63 *)
Lemma type1_increasing g r r' : 0 < g -> 0 <= r < r' ->
  exists y y', eval_real 1 [g] r = Some (Fin y) /\ eval_real 1 [g] r' = Some (Fin y') /\ y < y'.
Proof.
  intros G H. exists (power r g), (power r' g). split; [apply type1_val; destruct H as [[H|H] _]; [left|right]; lra|].
  split; [apply type1_val; left; lra|]. now apply power_lt.
Qed.
Lemma type4_increasing g a b c d r r' : 0 < g -> 0 < a -> 0 < c -> c * d <= break_value g a b d ->
  (d <= r -> 0 <= a * r + b) -> (d <= r' -> 0 <= a * r' + b) -> r < r' ->
  exists y y', eval_real 4 [g; a; b; c; d] r = Some (Fin y) /\ eval_real 4 [g; a; b; c; d] r' = Some (Fin y') /\ y < y'.
Proof.
  intros G A C BR E E' L. assert (AL : a * r < a * r') by (apply Rmult_lt_compat_l; lra).
  destruct (Rle_dec d r) as [D|D], (Rle_dec d r') as [D'|D']; try lra.
  - specialize (E D). specialize (E' D'). do 2 eexists. split; [now apply type4_upper|]. split; [now apply type4_upper|]. apply power_lt; lra.
  - specialize (E' D'). do 2 eexists. split; [apply type4_lower; lra|]. split; [now apply type4_upper|].
    apply Rlt_le_trans with (c * d); [rewrite Rmult_comm; apply Rmult_lt_compat_l; lra|].
    eapply Rle_trans; [exact BR|]. unfold break_value. apply power_le; [|lra]. split; [apply Rmax_l|]. apply Rmax_lub; [exact E'|].
    assert (a * d <= a * r') by (apply Rmult_le_compat_l; lra). lra.
  - do 2 eexists. split; [apply type4_lower; lra|]. split; [apply type4_lower; lra|]. now apply Rmult_lt_compat_r.
Qed.
Lemma type108_increasing g r r' : tol <= g -> 0 <= r < r' -> r' <= 1 ->
  exists y y', eval_real 108 [g] r = Some (Fin y) /\ eval_real 108 [g] r' = Some (Fin y') /\ y < y'.
Proof.
  intros G H H1. pose proof tol_pos as T. assert (I : 0 < 1 / g) by (apply Rdiv_lt_0_compat; lra).
  exists (s_curve g r), (s_curve g r'). split; [apply type108_val; lra|]. split; [apply type108_val; lra|].
  unfold s_curve. apply power_lt; [|exact I].
  pose proof (power_unit (1 - r) (1 / g) ltac:(lra) I). pose proof (power_lt (1 - r') (1 - r) (1 / g) ltac:(lra) I). lra.
Qed.
Lemma sigmoid_neg k x : k <> 0 -> sigmoid (- k) x = sigmoid k x.
Proof.
  intros N. unfold sigmoid. rewrite !logistic_flip, !logistic_odd. pose proof (logistic_1_nz k N). field. exact H.
Qed.
Lemma sigmoid_inc k x x' : k <> 0 -> x < x' -> sigmoid k x < sigmoid k x'.
Proof.
  assert (P : forall k, 0 < k -> x < x' -> sigmoid k x < sigmoid k x').
  { clear k. intros k K L. unfold sigmoid. pose proof (logistic_inc k 0 1 K ltac:(lra)) as L1. rewrite logistic_0 in L1.
    assert (0 < / 2 / logistic k 1) by (apply Rdiv_lt_0_compat; lra).
    pose proof (logistic_inc k (2 * x - 1) (2 * x' - 1) K ltac:(lra)).
    assert (/ 2 / logistic k 1 * logistic k (2 * x - 1) < / 2 / logistic k 1 * logistic k (2 * x' - 1)) by (now apply Rmult_lt_compat_l). lra. }
  intros N L. destruct (Rlt_le_dec 0 k) as [K|K]; [now apply P|].
  rewrite <- (sigmoid_neg k x N), <- (sigmoid_neg k x' N). apply P; lra.
Qed.
Lemma type109_increasing k r r' : k <> 0 -> r < r' ->
  exists y y', eval_real 109 [k] r = Some (Fin y) /\ eval_real 109 [k] r' = Some (Fin y') /\ y < y'.
Proof.
  intros N L. exists (sigmoid k r), (sigmoid k r'). split; [now apply type109_val|]. split; [now apply type109_val|]. now apply sigmoid_inc.
Qed.

(** ** C64 *)
Lemma type108_ends g : tol <= g -> eval_real 108 [g] 0 = Some (Fin 0) /\ eval_real 108 [g] 1 = Some (Fin 1).
Proof.
  intros G. rewrite !type108_val by (try exact G; lra). unfold s_curve. split; do 2 f_equal.
  - replace (1 - 0) with 1 by ring. rewrite power_1l. replace (1 - 1) with 0 by ring. apply power_0.
  - replace (1 - 1) with 0 by ring. rewrite power_0. replace (1 - 0) with 1 by ring. apply power_1l.
Qed.
Lemma type109_ends k : k <> 0 ->
  eval_real 109 [k] 0 = Some (Fin 0) /\ eval_real 109 [k] 1 = Some (Fin 1) /\ eval_real 109 [k] (/ 2) = Some (Fin (/ 2)).
Proof.
  intros N. pose proof (logistic_1_nz k N) as L. rewrite !type109_val by exact N. unfold sigmoid.
  replace (2 * 0 - 1) with (- (1)) by ring. replace (2 * 1 - 1) with 1 by ring. replace (2 * / 2 - 1) with 0 by field.
  rewrite logistic_odd, logistic_0. split; [|split]; do 2 f_equal; field; exact L.
Qed.
Lemma type109_symmetric k r : k <> 0 ->
  exists y, eval_real 109 [k] r = Some (Fin y) /\ eval_real 109 [k] (1 - r) = Some (Fin (1 - y)).
Proof.
  intros N. exists (sigmoid k r). split; [now apply type109_val|]. rewrite type109_val by exact N. do 2 f_equal.
  unfold sigmoid. replace (2 * (1 - r) - 1) with (- (2 * r - 1)) by ring. rewrite logistic_odd. field. now apply logistic_1_nz.
Qed.

(** ** C50, C51 *)
Section Generic.
Local Open Scope Z_scope.

Ltac by_bits p := do 7 (try (destruct p as [p|p|])).

Definition supported : list (Z * nat) :=
  [(1, 1%nat); (-1, 1%nat); (2, 3%nat); (-2, 3%nat); (3, 4%nat); (-3, 4%nat); (4, 5%nat); (-4, 5%nat); (5, 7%nat); (-5, 7%nat); (6, 4%nat); (-6, 4%nat); (7, 5%nat); (-7, 5%nat);
   (8, 5%nat); (-8, 5%nat); (108, 1%nat); (-108, 1%nat); (109, 1%nat); (-109, 1%nat)].
Lemma supported_in t n : parameters_of (Z.abs t) = Some n -> In (t, n) supported.
Proof.
  destruct t as [|p|p]; cbn [Z.abs parameters_of]; try discriminate; by_bits p; try discriminate;
    intros [= <-]; cbn; tauto.
Qed.
Lemma eval_unsupported {F} (O : FOps F) t ps r : parameters_of (Z.abs t) = None -> eval_parametric O t ps r = Some (f_lit O L0).
Proof.
  destruct t as [|p|p]; cbn [Z.abs parameters_of]; [reflexivity| |];
    by_bits p; try discriminate; reflexivity.
Qed.

Lemma eval_reads {F} (O : FOps F) t n ps r : In (t, n) supported ->
  (eval_parametric O t ps r = None <-> (List.length ps < n)%nat) /\
  ((n <= List.length ps)%nat -> forall more, eval_parametric O t (ps ++ more) r = eval_parametric O t ps r).
Proof.
  intros H. cbn in H.
  repeat (destruct H as [[= <- <-]|H];
    [split;
      [do 7 (try (destruct ps as [|? ps])); cbn; (split; [try discriminate; lia|try reflexivity; try lia])
      |do 7 (try (destruct ps as [|? ps])); cbn; intros L more; try lia; reflexivity]|]).
  contradiction.
Qed.

Lemma eval_panics {F} (O : FOps F) t n ps r : parameters_of (Z.abs t) = Some n ->
  (eval_parametric O t ps r = None <-> (List.length ps < n)%nat).
Proof. intros H. exact (proj1 (eval_reads O t n ps r (supported_in t n H))). Qed.
Lemma eval_extra {F} (O : FOps F) t n ps more r : parameters_of (Z.abs t) = Some n -> (n <= List.length ps)%nat ->
  eval_parametric O t (ps ++ more) r = eval_parametric O t ps r.
Proof. intros H L. exact (proj2 (eval_reads O t n ps r (supported_in t n H)) L more). Qed.

Lemma registered t n :
  parameters_of t = Some n <-> exists c, In c default_curves /\ function_curve_id c = t /\ parameter_count c = n.
Proof.
  split.
  - destruct t as [|p|p]; cbn [parameters_of]; try discriminate; by_bits p; try discriminate; intros [= <-];
      (eexists (mkCurve _ _); split; [|split; [reflexivity|reflexivity]]; cbn; tauto).
  - intros (c & I & <- & <-). cbn in I. repeat (destruct I as [<-|I]; [reflexivity|]). contradiction.
Qed.

Definition i32_abs_wrapping (t : Z) : Z := if t =? - 2 ^ 31 then t else Z.abs t.
Lemma i32_abs_val e t : i32_abs e t = if (t =? - 2 ^ 31) && ovf e then None else Some (i32_abs_wrapping t).
Proof. unfold i32_abs, i32_abs_wrapping. destruct (t =? - 2 ^ 31), (ovf e); reflexivity. Qed.

Lemma set_from_panics e cs k t : is_in_set_from e cs k t = None <-> t = - 2 ^ 31 /\ ovf e = true /\ cs <> [].
Proof.
  revert k. induction cs as [|c cs IH]; intros k; cbn [is_in_set_from].
  - split; [discriminate|]. intros (_ & _ & X). now contradict X.
  - rewrite i32_abs_val. destruct (t =? - 2 ^ 31) eqn:T, (ovf e) eqn:V; cbn [andb].
    1: apply Z.eqb_eq in T; (split; [intros _; repeat split; [exact T|discriminate]|reflexivity]).
    all: (split;
      [destruct (_ =? function_curve_id c); [discriminate|]; rewrite IH; intros (? & ? & _);
        first [discriminate|apply Z.eqb_neq in T; contradiction]
      |intros (? & ? & _); first [discriminate|apply Z.eqb_neq in T; contradiction]]).
Qed.
Lemma set_from_found e cs k t i : ~ (t = - 2 ^ 31 /\ ovf e = true) ->
  (is_in_set_from e cs k t = Some (Some i) <->
   exists j, i = (k + j)%nat /\ (exists c, nth_error cs j = Some c /\ function_curve_id c = i32_abs_wrapping t) /\
     (forall j' c', (j' < j)%nat -> nth_error cs j' = Some c' -> function_curve_id c' <> i32_abs_wrapping t)).
Proof.
  intros NP. revert k. induction cs as [|c cs IH]; intros k; cbn [is_in_set_from].
  - split; [discriminate|]. intros (j & _ & (c & H & _) & _). destruct j; discriminate.
  - rewrite i32_abs_val. assert (G : (t =? - 2 ^ 31) && ovf e = false).
    { apply not_true_is_false. intros X. apply andb_prop in X as (X & Y). apply NP. split; [now apply Z.eqb_eq|exact Y]. }
    rewrite G. destruct (i32_abs_wrapping t =? function_curve_id c) eqn:E.
    + apply Z.eqb_eq in E. split.
      * intros [= <-]. exists 0%nat. split; [lia|]. split; [exists c; split; [reflexivity|now symmetry]|]. intros j' c' L; lia.
      * intros (j & -> & _ & N). destruct j as [|j]; [do 2 f_equal; lia|].
        exfalso. exact (N 0%nat c ltac:(lia) eq_refl (eq_sym E)).
    + apply Z.eqb_neq in E. rewrite IH. split.
      * intros (j & -> & C & N). exists (S j). split; [lia|]. split; [exact C|]. intros [|j'] c' L H.
        -- injection H as <-. congruence.
        -- exact (N j' c' ltac:(lia) H).
      * intros (j & -> & (c0 & H & C) & N). destruct j as [|j].
        -- injection H as <-. congruence.
        -- exists j. split; [lia|]. split; [exists c0; now split|]. intros j' c' L H'. exact (N (S j') c' ltac:(lia) H').
Qed.

Lemma set_panics e cs t : is_in_set e cs t = None <-> t = - 2 ^ 31 /\ ovf e = true /\ cs <> [].
Proof. apply set_from_panics. Qed.
Lemma set_found e cs t i : ~ (t = - 2 ^ 31 /\ ovf e = true) ->
  (is_in_set e cs t = Some (Some i) <->
   (exists c, nth_error cs i = Some c /\ function_curve_id c = i32_abs_wrapping t) /\
   (forall j c, (j < i)%nat -> nth_error cs j = Some c -> function_curve_id c <> i32_abs_wrapping t)).
Proof.
  intros NP. unfold is_in_set. rewrite set_from_found by exact NP. cbn [Nat.add]. split.
  - intros (j & -> & H). exact H.
  - intros H. exists i. now split.
Qed.
Lemma set_symmetric e cs t : t <> - 2 ^ 31 -> t <> 2 ^ 31 -> is_in_set e cs (- t) = is_in_set e cs t.
Proof.
  intros H H'. unfold is_in_set. generalize 0%nat. induction cs as [|c cs IH]; intros k; cbn [is_in_set_from]; [reflexivity|].
  rewrite !i32_abs_val. unfold i32_abs_wrapping. destruct (Z.eqb_spec t (- 2 ^ 31)), (Z.eqb_spec (- t) (- 2 ^ 31)); try lia.
  cbn [andb]. rewrite Z.abs_opp. destruct (_ =? _); [reflexivity|apply IH].
Qed.

Lemma default_positions t i : - 2 ^ 31 <= t < 2 ^ 31 -> t <> - 2 ^ 31 -> forall e,
  (is_in_set e default_curves t = Some (Some i) <-> nth_error type_order i = Some (Z.abs t)).
Proof.
  intros R N e. rewrite set_found by lia. unfold i32_abs_wrapping. destruct (Z.eqb_spec t (- 2 ^ 31)); [lia|].
  assert (M : type_order = List.map function_curve_id default_curves) by reflexivity. rewrite M. split.
  - intros ((c & H & <-) & _). now rewrite nth_error_map, H.
  - intros H. rewrite nth_error_map in H. destruct (nth_error default_curves i) as [c|] eqn:E; [|discriminate].
    injection H as H. split; [exists c; now split|]. intros j c' L E' X.
    assert (D : NoDup (List.map function_curve_id default_curves)) by (repeat constructor; cbn; lia).
    rewrite NoDup_nth_error in D. assert (j = i); [|lia]. apply D.
    + apply nth_error_Some. rewrite nth_error_map, E'. discriminate.
    + rewrite !nth_error_map, E, E'. cbn. congruence.
Qed.
Lemma default_unknown e t : - 2 ^ 31 <= t < 2 ^ 31 ->
  (is_in_set e default_curves t = Some None <-> parameters_of (Z.abs t) = None /\ ~ (t = - 2 ^ 31 /\ ovf e = true)).
Proof.
  intros R. split.
  - intros H. split.
    + destruct (parameters_of (Z.abs t)) as [n|] eqn:P; [|reflexivity]. apply supported_in in P. exfalso. cbn in P.
      repeat (destruct P as [[= <- <-]|P]; [discriminate|]). contradiction.
    + intros (X & Y). assert (is_in_set e default_curves t = None) by (apply set_panics; repeat split; try assumption; discriminate). congruence.
  - intros (P & NP). destruct (is_in_set e default_curves t) as [[i|]|] eqn:E; [|reflexivity|].
    + apply set_found in E; [|exact NP]. destruct E as ((c & H & C) & _). exfalso.
      assert (Q : parameters_of (i32_abs_wrapping t) = Some (parameter_count c)).
      { apply registered. exists c. split; [now apply nth_error_In in H|]. now split. }
      unfold i32_abs_wrapping in Q. destruct (t =? - 2 ^ 31) eqn:T; [apply Z.eqb_eq in T; subst t; discriminate|congruence].
    + apply set_panics in E as (X & Y & _). tauto.
Qed.
End Generic.

(** Type 3 at the exact break, where the affine part is zero: the output is 0, not the offset. *)
Lemma type3_break g a b c : tol <= a -> b <= 0 ->
  eval_real 3 [g; a; b; c] (- b / a) = Some (Fin 0).
Proof.
  intros A B. pose proof tol_pos as T. ev. rewrite small_abs by (now apply abs_ge_pos). rewrite div_fin by lra. rewrite max_fin. ar.
  assert (0 <= - b / a) by (apply Rmult_le_pos; [lra|left; apply Rinv_0_lt_compat; lra]).
  rewrite (Rltb_f (- b / a)) by (apply Rmax_lub; lra). cbn [negb]. replace (a * (- b / a) + b) with 0 by (field; lra).
  now rewrite Rltb_f by lra.
Qed.
Lemma type3_below g a b c y : tol <= a -> y < c -> eval_real (-3) [g; a; b; c] y = Some (Fin (- b / a)).
Proof.
  intros A L. pose proof tol_pos as T. ev. rewrite small_abs by (now apply abs_ge_pos). rewrite (Rltb_t y) by exact L. cbn [negb].
  now rewrite div_fin by lra.
Qed.

Lemma type1_tiny : exists g r, 0 < g < tol /\ 0 < r /\ eval_real 1 [g] r = Some (Fin (power r g)) /\
  eval_real (-1) [g] (power r g) = Some (Fin (10 ^ 22)).
Proof.
  exists (/ 20000), 2. unfold tol. split; [lra|]. split; [lra|]. split; [apply type1_val; lra|].
  ev. rewrite Rltb_f by apply power_ge0. rewrite Rabs_right by lra. rewrite Rltb_t by (unfold tol; lra). reflexivity.
Qed.
Lemma type8_negative a b c d e r : a < 0 -> 0 < b ->
  exists y, eval_real 8 [a; b; c; d; e] r = Some (Fin y) /\ eval_real (-8) [a; b; c; d; e] y = Some (Fin 0).
Proof.
  intros A B. exists (a * power b (c * r + d) + e). pose proof (power_gt0 b (c * r + d) B) as PG. split.
  - ev. now rewrite pow_fin by exact B.
  - ev. rewrite Rltb_t; [reflexivity|]. assert (0 < - a * power b (c * r + d)) by (apply Rmult_lt_0_compat; lra). lra.
Qed.
Lemma type109_zero r : eval_real 109 [0] r = Some NaN.
Proof.
  ev. unfold sigmoid_factory. change (f_lit ext_ops L1) with (Fin 1). change (f_lit ext_ops Lhalf) with (Fin (/ 2)).
  change (f_lit ext_ops L2) with (Fin 2).
  cbn [ext_ops f_add f_sub f_mul f_div]. ar. rewrite !base_val.
  assert (Z : forall t, logistic 0 t = 0).
  { intros t. unfold logistic. replace (- 0 * t) with 0 by ring. rewrite exp_0. lra. }
  rewrite !Z. cbn. rewrite (Reqb_t 0) by reflexivity. rewrite (Reqb_f (/ 2)) by lra. unfold inf_of. rewrite Rltb_f by lra.
  cbn. now rewrite Reqb_f, Reqb_t by lra.
Qed.

(** The sRGB break: the line ends just below the power part. *)
Lemma power_root x y (n m : nat) : 0 < x -> 0 < y -> y ^ m <= x ^ n -> (0 < m)%nat -> y <= power x (INR n / INR m).
Proof.
  intros X Y L M. assert (MP : 0 < INR m) by (now apply lt_0_INR).
  rewrite <- (power_undo y (INR m)) by lra. replace (INR n / INR m) with (INR n * (1 / INR m)) by (field; lra).
  rewrite <- power_mult by lra. apply power_le.
  - split; [apply power_ge0|]. rewrite !power_pos by assumption. rewrite !Rpower_pow by assumption. exact L.
  - apply Rdiv_lt_0_compat; lra.
Qed.
Lemma srgb_break : 100 / 1292 * (4045 / 100000) <= break_value (12 / 5) (1000 / 1055) (55 / 1055) (4045 / 100000).
Proof.
  unfold break_value. rewrite Rmax_right by lra. replace (12 / 5) with (INR 12 / INR 5) by (cbn; lra).
  apply power_root; [lra|lra|lra|lia].
Qed.
