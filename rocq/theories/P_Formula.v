(** Proofs: the curve formulas for every exponent, and type 3 with a negative slope (C72). *)
From Coq Require Import Reals Lra Psatz.
From Verif Require Import M_Base M_Curve M_CurveReal S_Curve S_Curve2 P_Curve P_Curve2.
Open Scope R_scope.

Lemma type1_any g x : 0 < x \/ (x = 0 /\ 0 < g) -> eval_real 1 [g] x = Some (Fin (icc1 g x)).
Proof. intros H. now apply type1_val. Qed.
Lemma type2_any g a b x : tol <= a -> eval_real 2 [g; a; b] x = Some (Fin (icc2 g a b x)).
Proof.
  intros A. pose proof tol_pos as T. unfold icc2. ev. rewrite small_abs by (now apply abs_ge_pos). rewrite div_fin by lra. ar.
  destruct (Rle_dec (- b / a) x) as [L|L].
  - rewrite (Rltb_f x) by exact L. cbn [negb]. apply break_le in L; [|lra]. destruct L as [L|L].
    + rewrite (Rltb_t 0) by exact L. now rewrite pow_fin by exact L.
    + rewrite <- L, power_0. now rewrite Rltb_f by lra.
  - now rewrite (Rltb_t x) by lra.
Qed.
Lemma type3_any g a b c x : tol <= a ->
  eval_real 3 [g; a; b; c] x =
  Some (Fin (if Rlt_dec x 0 then c else if Rlt_dec x (- b / a) then c
             else if Req_EM_T x (- b / a) then 0 else power (a * x + b) g + c)).
Proof.
  intros A. pose proof tol_pos as T. ev. rewrite small_abs by (now apply abs_ge_pos). rewrite div_fin by lra. rewrite max_fin. ar.
  destruct (Rlt_dec x 0) as [X|X].
  { rewrite (Rltb_t x); [reflexivity|]. eapply Rlt_le_trans; [exact X|apply Rmax_r]. }
  destruct (Rlt_dec x (- b / a)) as [L|L].
  { rewrite (Rltb_t x); [reflexivity|]. eapply Rlt_le_trans; [exact L|apply Rmax_l]. }
  rewrite (Rltb_f x) by (apply Rmax_lub; lra). cbn [negb].
  destruct (Req_EM_T x (- b / a)) as [E|E].
  - replace (a * x + b) with 0 by (rewrite E; field; lra). now rewrite Rltb_f by lra.
  - assert (P : 0 < a * x + b) by (apply break_lt; lra). rewrite Rltb_t by exact P. now rewrite pow_fin by exact P.
Qed.
Lemma type3_negative_slope g a b c x : a <= - tol ->
  eval_real 3 [g; a; b; c] x = Some (Fin (if Rlt_dec x (Rmax (- b / a) 0) then c else 0)).
Proof.
  intros A. pose proof tol_pos as T. ev. rewrite small_abs by (rewrite Rabs_left; lra). rewrite div_fin by lra. rewrite max_fin. ar.
  destruct (Rlt_dec x (Rmax (- b / a) 0)) as [L|L]; [now rewrite (Rltb_t x)|].
  rewrite (Rltb_f x) by lra. cbn [negb]. rewrite Rltb_f; [reflexivity|].
  assert (H : - b / a <= x) by (pose proof (Rmax_l (- b / a) 0); lra). apply (Rmult_le_compat_l (- a)) in H; [|lra].
  replace (- a * (- b / a)) with b in H by (field; lra). lra.
Qed.
Lemma type3_conforms_any g a b c x : tol <= a ->
  (eval_real 3 [g; a; b; c] x = Some (Fin (icc3 g a b c x)) <->
   ~ (- b / a < x < 0) /\ (x = - b / a -> 0 <= x -> c = 0)).
Proof.
  intros A. rewrite type3_any by exact A. pose proof (type3_conforms 1 a b c x Rlt_0_1 A) as H.
  rewrite type3_value in H by (assumption || lra). unfold icc3 in *. pose proof tol_pos as T.
  assert (INJ : forall u v, Some (Fin u) = Some (Fin v) <-> u = v) by (split; congruence). rewrite INJ in *. rewrite <- H. clear H.
  assert (P : forall h, - b / a < x -> 0 < power (a * x + b) h) by (intros h L; apply power_gt0; apply break_lt; lra).
  assert (Z : x = - b / a -> forall h, power (a * x + b) h = 0).
  { intros E h. replace (a * x + b) with 0 by (rewrite E; field; lra). apply power_0. }
  destruct (Rlt_dec x 0) as [X|X]; destruct (Rle_dec (- b / a) x) as [L|L]; try tauto.
  - destruct L as [L|L]; [pose proof (P g L); pose proof (P 1 L); split; intros; lra|]. rewrite !Z by lra. tauto.
  - destruct (Rlt_dec x (- b / a)); [lra|]. destruct (Req_EM_T x (- b / a)) as [E|E]; [rewrite !Z by lra; tauto|tauto].
  - destruct (Rlt_dec x (- b / a)); [tauto|lra].
Qed.
Lemma type4_any g a b c d x :
  eval_real 4 [g; a; b; c; d] x =
    Some (Fin (if Rlt_dec x d then icc4 g a b c d x else if Rlt_dec (a * x + b) 0 then 0 else icc4 g a b c d x)).
Proof.
  unfold icc4. destruct (Rlt_dec x d) as [L|L].
  - rewrite type4_lower by exact L. destruct (Rle_dec d x); [lra|]. do 2 f_equal. ring.
  - destruct (Rle_dec d x); [|lra]. ev. rewrite (Rltb_f x) by lra. cbn [negb].
    destruct (Rlt_dec (a * x + b) 0) as [N|N]; [now rewrite Rltb_f by lra|].
    destruct (Req_dec (a * x + b) 0) as [Z|Z]; [rewrite Z, power_0; now rewrite Rltb_f by lra|].
    rewrite Rltb_t by lra. now rewrite pow_fin by lra.
Qed.
Lemma type5_any g a b c d e f x :
  eval_real 5 [g; a; b; c; d; e; f] x =
    Some (Fin (if Rlt_dec x d then icc5 g a b c d e f x else if Rlt_dec (a * x + b) 0 then e else icc5 g a b c d e f x)).
Proof.
  unfold icc5. destruct (Rlt_dec x d) as [L|L].
  - destruct (Rle_dec d x); [lra|]. ev. rewrite (Rltb_t x) by exact L. cbn [negb]. do 2 f_equal. ring.
  - destruct (Rle_dec d x); [|lra]. ev. rewrite (Rltb_f x) by lra. cbn [negb].
    destruct (Rlt_dec (a * x + b) 0) as [N|N]; [now rewrite Rltb_f by lra|].
    destruct (Req_dec (a * x + b) 0) as [Z|Z].
    + rewrite Z, power_0, Rltb_f by lra. do 2 f_equal. ring.
    + rewrite Rltb_t by lra. now rewrite pow_fin by lra.
Qed.
Lemma type6_any g a b c x : 0 < g \/ a * x + b <> 0 ->
  eval_real 6 [g; a; b; c] x = Some (Fin (if Rlt_dec (a * x + b) 0 then c else icc6 g a b c x)).
Proof.
  intros G. unfold icc6. ev. destruct (Rlt_dec (a * x + b) 0) as [N|N]; [now rewrite Rltb_t|].
  rewrite Rltb_f by lra. destruct (Req_dec (a * x + b) 0) as [Z|Z]; [now rewrite pow_fin0 by lra|now rewrite pow_fin by lra].
Qed.
Lemma type7_any g a b c d x : 0 < x \/ (x = 0 /\ 0 < g) ->
  eval_real 7 [g; a; b; c; d] x = Some (Fin (if Rle_dec (b * power x g + c) 0 then d else icc7 g a b c d x)).
Proof.
  intros X. unfold icc7. ev.
  assert (E : ext_pow (Fin x) (Fin g) = Fin (power x g)) by (destruct X as [X|(-> & X)]; [now apply pow_fin|apply pow_fin0; lra]).
  rewrite E. ar. destruct (Rle_dec (b * power x g + c) 0) as [N|N].
  - now rewrite Rltb_f by exact N.
  - rewrite Rltb_t by lra. cbn [negb]. now rewrite log_fin by lra.
Qed.
Lemma type8_any a b c d e x : 0 < b \/ (b = 0 /\ 0 < c * x + d) -> eval_real 8 [a; b; c; d; e] x = Some (Fin (icc8 a b c d e x)).
Proof.
  intros B. ev. destruct B as [B|(-> & B)]; [now rewrite pow_fin by exact B|now rewrite pow_fin0 by lra].
Qed.
Lemma type5_is_4_any g a b c d x : eval_real 5 [g; a; b; c; d; 0; 0] x = eval_real 4 [g; a; b; c; d] x.
Proof.
  rewrite type5_any, type4_any. unfold icc4, icc5. do 2 f_equal.
  destruct (Rlt_dec x d), (Rlt_dec (a * x + b) 0), (Rle_dec d x); lra.
Qed.
(** The base 0 with an exponent that is not positive, where the formulas are not defined. *)
Lemma zero_base g a b c x : a * x + b = 0 ->
  (g < 0 -> eval_real 1 [g] 0 = Some PInf /\ eval_real 6 [g; a; b; c] x = Some PInf) /\
  (g = 0 -> eval_real 1 [g] 0 = Some (Fin 1) /\ eval_real 6 [g; a; b; c] x = Some (Fin (1 + c))).
Proof.
  intros Z.
  assert (P : g < 0 -> ext_pow (Fin 0) (Fin g) = PInf).
  { intros G. cbn [ext_pow]. rewrite (Reqb_f g) by lra. rewrite Rltb_f by lra. rewrite Reqb_t by reflexivity. now rewrite Rltb_f by lra. }
  assert (Q : ext_pow (Fin 0) (Fin 0) = Fin 1) by (cbn [ext_pow]; now rewrite Reqb_t).
  split; intros G.
  - split; ev; rewrite ?Z; rewrite Rltb_f by lra; now rewrite P by exact G.
  - subst g. split; ev; rewrite ?Z; rewrite Rltb_f by lra; now rewrite Q.
Qed.

(** Negative inputs of type 7: the power of a negative number is real for integer exponents. *)
Lemma minus1_even k : powerRZ (-1) (2 * k) = 1.
Proof.
  replace (2 * k)%Z with (k + k)%Z by ring. rewrite powerRZ_add by lra. rewrite <- powerRZ_mult.
  replace (-1 * -1) with 1 by ring. apply powerRZ_R1.
Qed.
Lemma minus1 n : powerRZ (-1) n = if Z.even n then 1 else -1.
Proof.
  destruct (Z.even n) eqn:E.
  - apply Z.even_spec in E as (k & ->). apply minus1_even.
  - assert (O : Z.odd n = true) by (rewrite <- Z.negb_even, E; reflexivity). apply Z.odd_spec in O as (k & ->).
    rewrite powerRZ_add by lra. rewrite minus1_even. rewrite Rmult_1_l. exact (powerRZ_1 (-1)).
Qed.
Lemma pow_negative x n : x < 0 -> n <> 0%Z -> ext_pow (Fin x) (Fin (IZR n)) = Fin (powerRZ x n).
Proof.
  intros X N. cbn [ext_pow]. assert (NR : IZR n <> 0) by (now apply not_0_IZR). rewrite Reqb_f by exact NR. rewrite Rltb_f by lra. rewrite Reqb_f by lra.
  assert (I : Int_part (IZR n) = n).
  { unfold Int_part. rewrite <- (tech_up (IZR n) (n + 1)); [ring| |]; rewrite plus_IZR; lra. }
  unfold is_integer. rewrite I. rewrite Reqb_t by reflexivity.
  replace (powerRZ x n) with (powerRZ (-1) n * powerRZ (- x) n) by (rewrite <- powerRZ_mult; f_equal; ring).
  rewrite minus1, (powerRZ_Rpower (- x)) by lra. destruct (Z.even n); f_equal; ring.
Qed.
Lemma type7_negative a b c d x n : x < 0 -> n <> 0%Z ->
  eval_real 7 [IZR n; a; b; c; d] x =
  Some (Fin (if Rle_dec (b * powerRZ x n + c) 0 then d else a * log_10 (b * powerRZ x n + c) + d)).
Proof.
  intros X N. ev. rewrite pow_negative by assumption. ar. destruct (Rle_dec (b * powerRZ x n + c) 0) as [L|L].
  - now rewrite Rltb_f by exact L.
  - rewrite Rltb_t by lra. cbn [negb]. now rewrite log_fin by lra.
Qed.
Lemma type7_not_real g a b c d x : x < 0 -> (forall n, g <> IZR n) -> eval_real 7 [g; a; b; c; d] x = Some NaN.
Proof.
  intros X N.
  assert (P : ext_pow (Fin x) (Fin g) = NaN).
  { cbn [ext_pow]. rewrite (Reqb_f g) by (apply (N 0%Z)). rewrite Rltb_f by lra. rewrite Reqb_f by lra.
    unfold is_integer. rewrite Reqb_f; [reflexivity|]. intros E. exact (N _ (eq_sym E)). }
  ev. rewrite P. reflexivity.
Qed.

(** Type 2 is never negative, whatever the parameters. *)
Lemma type2_never_negative g a b r : exists y, eval_real 2 [g; a; b] r = Some (Fin y) /\ 0 <= y.
Proof.
  destruct (Rlt_dec (Rabs a) tol) as [S|S]; [exists 0; split; [apply (tiny_slope g a b 0 r S)|lra]|].
  destruct (Rle_dec a 0) as [N|N].
  - exists 0. split; [|lra]. apply type2_negative_slope. rewrite Rabs_left1 in S by exact N. lra.
  - eexists. split; [apply type2_any; rewrite Rabs_right in S by lra; lra|]. unfold icc2. destruct (Rle_dec (- b / a) r); [apply power_ge0|lra].
Qed.
