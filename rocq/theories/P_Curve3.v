(** Proofs about the curves at binary64 (C75-C77). *)
From Coq Require Import ZArith Reals Lia Lra Psatz.
From Flocq Require Import Core Sterbenz IEEE754.BinarySingleNaN.
From Verif Require Import M_Base M_F64 M_Curve M_CurveF64 S_F64 P_S15 P_F64.
Open Scope R_scope.

Section Monotone.
Context (pow : f64 -> f64 -> f64) (lg ex : f64 -> f64) (MP : monotone_pow pow).
Notation O := (f64_ops pow lg ex).

Ltac ev := unfold eval_parametric; cbn [nth_error f64_ops f_lit f_neg f_abs f_add f_sub f_mul f_div f_lt f_ge f_max f_pow f_log10 f_exp];
  rewrite ?cst0.

Lemma zero_number : number zero. Proof. discriminate. Qed.
Lemma zero_zero : le64 zero zero. Proof. apply le64_refl, zero_number. Qed.
Lemma neg_le_zero x : f64_ltb x zero = true -> le64 x zero.
Proof. intros H. now apply ltb_lt64 in H as (H & _). Qed.
Lemma nonneg x : number x -> f64_ltb x zero = false -> le64 zero x.
Proof. intros N H. apply ltb_false; [exact N|exact zero_number|exact H]. Qed.
Lemma lt_down x y z : le64 x y -> f64_ltb y z = true -> f64_ltb x z = true.
Proof. rewrite !ltb_iff, le64_ov. intuition lra. Qed.
Lemma lt_up x y z : f64_ltb z x = true -> le64 x y -> f64_ltb z y = true.
Proof. rewrite !ltb_iff, le64_ov. intuition lra. Qed.
Lemma ge_up x y z : f64_geb x z = true -> le64 x y -> f64_geb y z = true.
Proof. rewrite !geb_iff. intros. eapply le64_trans; eassumption. Qed.
Lemma pos_not_neg x : f64_ltb zero x = true -> le64 zero x.
Proof. intros H. now apply ltb_lt64 in H as (H & _). Qed.

(** The common part "e > 0 ? e^g : 0". *)
Lemma part_mono g e e' : positive g -> le64 e e' ->
  le64 zero (if f64_ltb zero e then pow e g else zero) /\
  le64 (if f64_ltb zero e then pow e g else zero) (if f64_ltb zero e' then pow e' g else zero).
Proof.
  intros G L. destruct (f64_ltb zero e) eqn:E.
  - rewrite (lt_up _ _ _ E L). apply MP; [exact G|now apply pos_not_neg|exact L].
  - split; [apply zero_zero|]. destruct (f64_ltb zero e') eqn:E'; [|apply zero_zero].
    apply pos_not_neg in E'. apply (MP g e' e' G E'). apply le64_refl. now apply (le64_number _ _ E').
Qed.
Lemma line_mono a b r r' : positive a -> finite b -> le64 r r' -> le64 (Bplus mode_NE (Bmult mode_NE a r) b) (Bplus mode_NE (Bmult mode_NE a r') b).
Proof. intros A B L. apply plus_mono; [|exact B]. now apply mult_mono. Qed.

Lemma type1_mono g : positive g -> increasing (eval_parametric O 1 [g]).
Proof.
  intros G r r' L. destruct (le64_number _ _ L) as (N & N'). ev. do 2 eexists. split; [reflexivity|]. split; [reflexivity|].
  set (t := f64_ltb (Bminus mode_NE (Babs g) (f64_cst L1)) (f64_cst Ltol)).
  destruct (f64_ltb r zero) eqn:E, (f64_ltb r' zero) eqn:E'.
  - destruct t; [exact L|apply zero_zero].
  - apply le64_trans with zero; [destruct t; [now apply neg_le_zero|apply zero_zero]|].
    apply nonneg in E'; [|exact N']. apply (MP g r' r' G E'). now apply le64_refl.
  - rewrite (lt_down _ _ _ L E') in E. discriminate.
  - apply nonneg in E; [|exact N]. now apply MP.
Qed.
Lemma type_m1_mono g : positive g -> increasing (eval_parametric O (-1) [g]).
Proof.
  intros G r r' L. destruct (le64_number _ _ L) as (N & N'). ev. do 2 eexists. split; [reflexivity|]. split; [reflexivity|].
  set (t := f64_ltb (Babs (Bminus mode_NE g (f64_cst L1))) (f64_cst Ltol)).
  assert (P : forall x y, le64 zero x -> le64 x y ->
    le64 zero (if f64_ltb (Babs g) (f64_cst Ltol) then f64_cst Lplus_inf else pow x (Bdiv mode_NE (f64_cst L1) g)) /\
    le64 (if f64_ltb (Babs g) (f64_cst Ltol) then f64_cst Lplus_inf else pow x (Bdiv mode_NE (f64_cst L1) g))
         (if f64_ltb (Babs g) (f64_cst Ltol) then f64_cst Lplus_inf else pow y (Bdiv mode_NE (f64_cst L1) g))).
  { intros x y X Y. destruct (f64_ltb (Babs g) (f64_cst Ltol)) eqn:T.
    - assert (Q : number (f64_cst Lplus_inf)) by discriminate. split; [|now apply le64_refl].
      apply geb_iff. vm_compute. reflexivity.
    - assert (GT : B2R (f64_cst Ltol) <= B2R g).
      { destruct G as (F & G). destruct cst_tol as (_ & FT). apply ltb_false in T; [|apply number_fin; now destruct g|now apply number_fin].
        apply le64_ov in T as (_ & _ & T). rewrite sign_abs in T by (rewrite ov_fin by exact F; lra). now rewrite !ov_fin in T by assumption. }
      apply MP; [|exact X|exact Y]. apply recip_positive; [apply G|exact GT]. }
  destruct (f64_ltb r zero) eqn:E, (f64_ltb r' zero) eqn:E'.
  - destruct t; [exact L|apply zero_zero].
  - apply le64_trans with zero; [destruct t; [now apply neg_le_zero|apply zero_zero]|].
    apply nonneg in E'; [|exact N']. apply (P r' r' E'). now apply le64_refl.
  - rewrite (lt_down _ _ _ L E') in E. discriminate.
  - apply nonneg in E; [|exact N]. now apply P.
Qed.
Lemma type2_mono g a b : positive g -> positive a -> finite b -> increasing (eval_parametric O 2 [g; a; b]).
Proof.
  intros G A B r r' L. ev. do 2 eexists. split; [reflexivity|]. split; [reflexivity|].
  destruct (f64_ltb (Babs a) (f64_cst Ltol)); [apply zero_zero|].
  pose proof (part_mono g _ _ G (line_mono a b r r' A B L)) as (Z & M).
  destruct (f64_geb r (Bdiv mode_NE (Bopp b) a)) eqn:D.
  - rewrite (ge_up _ _ _ D L). exact M.
  - destruct (f64_geb r' (Bdiv mode_NE (Bopp b) a)); [now apply le64_trans with (1 := Z)|apply zero_zero].
Qed.
Lemma type6_mono g a b c : positive g -> positive a -> finite b -> finite c -> increasing (eval_parametric O 6 [g; a; b; c]).
Proof.
  intros G A B C r r' L. ev. do 2 eexists. split; [reflexivity|]. split; [reflexivity|].
  pose proof (line_mono a b r r' A B L) as LL. set (e := Bplus mode_NE (Bmult mode_NE a r) b) in *. set (e' := Bplus mode_NE (Bmult mode_NE a r') b) in *.
  destruct (le64_number _ _ LL) as (N & N').
  destruct (f64_ltb e zero) eqn:E, (f64_ltb e' zero) eqn:E'.
  - now apply le64_refl, number_fin.
  - apply nonneg in E'; [|exact N']. destruct (MP g e' e' G E' (le64_refl _ N')) as (Z & _).
    pose proof (plus_mono zero (pow e' g) c Z C) as P.
    apply le64_trans with (Bplus mode_NE zero c); [|exact P].
    apply le64_ov. destruct (ov_plus zero c eq_refl C) as (E0 & NN). rewrite E0. cbn [zero B2R]. rewrite Rplus_0_l.
    rewrite round_generic by (try apply valid_rnd_round_mode; apply generic_format_B2R).
    rewrite cap_small by apply abs_B2R_lt_emax. rewrite ov_fin by exact C.
    split; [now apply fin_not_nan|]. split; [exact NN|lra].
  - rewrite (lt_down _ _ _ LL E') in E. discriminate.
  - apply nonneg in E; [|exact N]. apply plus_mono; [|exact C]. now apply MP.
Qed.

(** The two-part families: increasing as soon as the computed values at the break are in order. *)
Lemma type4_mono g a b c d : positive g -> positive a -> finite b -> positive c -> number d ->
  (forall y, eval_parametric O 4 [g; a; b; c; d] d = Some y -> le64 (Bmult mode_NE d c) y) ->
  increasing (eval_parametric O 4 [g; a; b; c; d]).
Proof.
  intros G A B C D BR r r' L. destruct (le64_number _ _ L) as (N & N').
  assert (BR' : le64 (Bmult mode_NE d c) (if f64_ltb zero (Bplus mode_NE (Bmult mode_NE a d) b) then pow (Bplus mode_NE (Bmult mode_NE a d) b) g else zero)).
  { apply BR. ev. assert (f64_geb d d = true) as -> by (apply geb_iff; now apply le64_refl). reflexivity. }
  ev. do 2 eexists. split; [reflexivity|]. split; [reflexivity|].
  destruct (f64_geb r d) eqn:E.
  - rewrite (ge_up _ _ _ E L). apply (part_mono g _ _ G (line_mono a b r r' A B L)).
  - apply geb_false in E; [|exact N|exact D]. destruct E as (E & _). destruct (f64_geb r' d) eqn:E'.
    + apply geb_iff in E'. apply le64_trans with (Bmult mode_NE d c); [now apply mult_mono|]. apply le64_trans with (1 := BR').
      apply (part_mono g _ _ G (line_mono a b d r' A B E')).
    + now apply mult_mono.
Qed.
Lemma upper5_mono g s s' e : positive g -> finite e -> le64 s s' ->
  le64 (if f64_ltb zero s then Bplus mode_NE (pow s g) e else e) (if f64_ltb zero s' then Bplus mode_NE (pow s' g) e else e).
Proof.
  intros G E L. destruct (f64_ltb zero s) eqn:S.
  - rewrite (lt_up _ _ _ S L). apply plus_mono; [|exact E]. apply MP; [exact G|now apply pos_not_neg|exact L].
  - destruct (f64_ltb zero s') eqn:S'; [|now apply le64_refl, number_fin]. apply pos_not_neg in S'. destruct (le64_number _ _ S') as (_ & N').
    destruct (MP g s' s' G S' (le64_refl _ N')) as (Z & _). apply le64_trans with (Bplus mode_NE zero e); [|now apply plus_mono].
    apply le64_ov. destruct (ov_plus zero e eq_refl E) as (E0 & NN). rewrite E0. cbn [zero B2R]. rewrite Rplus_0_l.
    rewrite round_generic by (try apply valid_rnd_round_mode; apply generic_format_B2R).
    rewrite cap_small by apply abs_B2R_lt_emax. rewrite ov_fin by exact E.
    split; [now apply fin_not_nan|]. split; [exact NN|lra].
Qed.
Lemma type5_mono g a b c d e f : positive g -> positive a -> finite b -> positive c -> number d -> finite e -> finite f ->
  (forall y, eval_parametric O 5 [g; a; b; c; d; e; f] d = Some y -> le64 (Bplus mode_NE (Bmult mode_NE d c) f) y) ->
  increasing (eval_parametric O 5 [g; a; b; c; d; e; f]).
Proof.
  intros G A B C D E F BR r r' L. destruct (le64_number _ _ L) as (N & N').
  assert (BR' : le64 (Bplus mode_NE (Bmult mode_NE d c) f)
     (if f64_ltb zero (Bplus mode_NE (Bmult mode_NE a d) b) then Bplus mode_NE (pow (Bplus mode_NE (Bmult mode_NE a d) b) g) e else e)).
  { apply BR. ev. assert (f64_geb d d = true) as -> by (apply geb_iff; now apply le64_refl). reflexivity. }
  ev. do 2 eexists. split; [reflexivity|]. split; [reflexivity|].
  destruct (f64_geb r d) eqn:X.
  - rewrite (ge_up _ _ _ X L). apply upper5_mono; [exact G|exact E|now apply line_mono].
  - apply geb_false in X; [|exact N|exact D]. destruct X as (X & _). destruct (f64_geb r' d) eqn:X'.
    + apply geb_iff in X'. apply le64_trans with (Bplus mode_NE (Bmult mode_NE d c) f); [apply plus_mono; [now apply mult_mono|exact F]|].
      apply le64_trans with (1 := BR'). apply upper5_mono; [exact G|exact E|now apply line_mono].
    + apply plus_mono; [now apply mult_mono|exact F].
Qed.
Lemma type_m2_mono g a b : positive g -> positive a -> finite b -> increasing (eval_parametric O (-2) [g; a; b]).
Proof.
  intros G A B r r' L. destruct (le64_number _ _ L) as (N & N'). ev. do 2 eexists. split; [reflexivity|]. split; [reflexivity|].
  destruct (f64_ltb (Babs g) (f64_cst Ltol)) eqn:T; [apply zero_zero|]. destruct (f64_ltb (Babs a) (f64_cst Ltol)); [apply zero_zero|]. cbn [orb].
  assert (GT : B2R (f64_cst Ltol) <= B2R g).
  { destruct G as (F & G). destruct cst_tol as (_ & FT). apply ltb_false in T; [|apply number_fin; now destruct g|now apply number_fin].
    apply le64_ov in T as (_ & _ & T). rewrite sign_abs in T by (rewrite ov_fin by exact F; lra). now rewrite !ov_fin in T by assumption. }
  pose proof (recip_positive g (proj1 G) GT) as RP.
  assert (CL : forall x y, le64 x y -> le64 (if f64_ltb x zero then zero else x) (if f64_ltb y zero then zero else y)).
  { intros x y H. destruct (le64_number _ _ H) as (NX & NY). destruct (f64_ltb y zero) eqn:Y.
    - rewrite (lt_down _ _ _ H Y). apply zero_zero.
    - destruct (f64_ltb x zero); [now apply nonneg|exact H]. }
  assert (CZ : forall x, number x -> le64 zero (if f64_ltb x zero then zero else x)).
  { intros x NX. destruct (f64_ltb x zero) eqn:X; [apply zero_zero|now apply nonneg]. }
  destruct (f64_ltb r zero) eqn:E, (f64_ltb r' zero) eqn:E'.
  - apply CL, zero_zero.
  - apply CZ. apply div_number; [exact A|]. apply minus_number; [|exact B]. apply nonneg in E'; [|exact N'].
    apply (le64_number zero). apply (MP _ r' r' RP E'). now apply le64_refl.
  - rewrite (lt_down _ _ _ L E') in E. discriminate.
  - apply CL. apply div_mono; [exact A|]. apply minus_mono; [|exact B]. apply MP; [exact RP|now apply nonneg|exact L].
Qed.
End Monotone.

(** Type 3 drops to 0 at the break whatever the math library does. *)
Lemma type3_not_mono pow lg ex g : ~ increasing (eval_parametric (f64_ops pow lg ex) 3 [g; f64_cst L1; zero; f64_cst L1]).
Proof.
  intros H. destruct (H (Bopp (f64_cst L1)) zero) as (y & y' & E & E' & L); [apply geb_iff; vm_compute; reflexivity|].
  unfold eval_parametric in E, E'. cbn [nth_error f64_ops f_lit f_neg f_abs f_add f_mul f_div f_lt f_ge f_max] in E, E'.
  assert (C1 : f64_ltb (Babs (f64_cst L1)) (f64_cst Ltol) = false) by (vm_compute; reflexivity). rewrite C1 in E, E'.
  set (disc := f64_max (Bdiv mode_NE (Bopp zero) (f64_cst L1)) (f64_cst L0)) in E, E'.
  assert (C2 : f64_geb (Bopp (f64_cst L1)) disc = false) by (vm_compute; reflexivity). rewrite C2 in E.
  assert (C3 : f64_geb zero disc = true) by (vm_compute; reflexivity). rewrite C3 in E'.
  assert (C4 : f64_ltb (f64_cst L0) (Bplus mode_NE (Bmult mode_NE (f64_cst L1) zero) zero) = false) by (vm_compute; reflexivity). rewrite C4 in E'.
  assert (Y : y = f64_cst L1) by congruence. assert (Y' : y' = f64_cst L0) by congruence. rewrite Y, Y' in L. apply geb_iff in L.
  assert (C5 : f64_geb (f64_cst L0) (f64_cst L1) = false) by (vm_compute; reflexivity). congruence.
Qed.

(** Type -2 is never negative. *)
Lemma type_m2_not_negative pow lg ex ps r y : eval_parametric (f64_ops pow lg ex) (-2) ps r = Some y -> ~ lt64 y zero.
Proof.
  unfold eval_parametric. do 3 (destruct ps as [|? ps]; [discriminate|]). cbn [nth_error f64_ops f_lit f_lt].
  rewrite cst0. intros [= <-] H. apply ltb_lt64 in H.
  match type of H with context [if ?c then _ else _] => destruct c end; [discriminate|].
  match type of H with context [if f64_ltb ?v zero then _ else _] => destruct (f64_ltb v zero) eqn:E end; [discriminate|congruence].
Qed.

(** NaN inputs (C76). *)
Lemma nan_ltb_l x : f64_ltb nan x = false. Proof. reflexivity. Qed.
Lemma nan_geb_l x : f64_geb nan x = false. Proof. reflexivity. Qed.
Lemma nan_geb_r x : f64_geb x nan = false. Proof. now destruct x as [| | |]. Qed.
Lemma nan_ltb_r x : f64_ltb x nan = false. Proof. now destruct x as [| | |]. Qed.
Lemma nan_plus_l x : Bplus mode_NE nan x = nan. Proof. reflexivity. Qed.
Lemma nan_plus_r x : Bplus mode_NE x nan = nan. Proof. now destruct x as [| | |]. Qed.
Lemma nan_minus_l x : Bminus mode_NE nan x = nan. Proof. reflexivity. Qed.
Lemma nan_minus_r x : Bminus mode_NE x nan = nan. Proof. now destruct x as [| | |]. Qed.
Lemma nan_mult_l x : Bmult mode_NE nan x = nan. Proof. reflexivity. Qed.
Lemma nan_mult_r x : Bmult mode_NE x nan = nan. Proof. now destruct x as [| | |]. Qed.
Lemma nan_div_l x : Bdiv mode_NE nan x = nan. Proof. reflexivity. Qed.
Lemma nan_div_r x : Bdiv mode_NE x nan = nan. Proof. now destruct x as [| | |]. Qed.
Ltac nn := repeat progress rewrite ?nan_ltb_l, ?nan_geb_l, ?nan_geb_r, ?nan_ltb_r, ?nan_plus_l, ?nan_plus_r, ?nan_minus_l, ?nan_minus_r,
  ?nan_mult_l, ?nan_mult_r, ?nan_div_l, ?nan_div_r.
Section Nan.
Context (pow : f64 -> f64 -> f64) (lg ex : f64 -> f64).
Notation O := (f64_ops pow lg ex).
Notation tol64 := (f64_cst Ltol).
Ltac ev := unfold eval_parametric; cbn [nth_error f64_ops f_lit f_neg f_abs f_add f_sub f_mul f_div f_lt f_ge f_max f_pow f_log10 f_exp];
  rewrite ?cst0.
Lemma nan2 g a b : eval_parametric O 2 [g; a; b] nan = Some zero.
Proof. ev. nn. now destruct (f64_ltb _ _). Qed.
Lemma nan3 g a b c : eval_parametric O 3 [g; a; b; c] nan = Some (if f64_ltb (Babs a) tol64 then zero else c).
Proof. ev. now nn. Qed.
Lemma nan_m3 g a b c : eval_parametric O (-3) [g; a; b; c] nan = Some (if f64_ltb (Babs a) tol64 then zero else Bdiv mode_NE (Bopp b) a).
Proof. ev. now nn. Qed.
Lemma nan4 g a b c d : eval_parametric O 4 [g; a; b; c; d] nan = Some nan.
Proof. ev. now nn. Qed.
Lemma nan5 g a b c d e f : eval_parametric O 5 [g; a; b; c; d; e; f] nan = Some nan.
Proof. ev. now nn. Qed.
Lemma nan_m4 g a b c d : eval_parametric O (-4) [g; a; b; c; d] nan = Some (if f64_ltb (Babs c) tol64 then zero else nan).
Proof. ev. now nn. Qed.
Lemma nan_m5 g a b c d e f : eval_parametric O (-5) [g; a; b; c; d; e; f] nan = Some (if f64_ltb (Babs c) tol64 then zero else nan).
Proof. ev. now nn. Qed.

Context (NP : nan_keeping_pow pow).
Lemma nan1 g : non_zero g -> eval_parametric O 1 [g] nan = Some nan.
Proof. intros G. ev. nn. now rewrite (proj1 NP) by exact G. Qed.
Lemma nan6 g a b c : non_zero g -> eval_parametric O 6 [g; a; b; c] nan = Some nan.
Proof. intros G. ev. nn. rewrite (proj1 NP) by exact G. now nn. Qed.
Lemma nan7 g a b c d : nan_keeping lg -> non_zero g -> eval_parametric O 7 [g; a; b; c; d] nan = Some nan.
Proof. intros LG G. ev. rewrite (proj1 NP) by exact G. nn. rewrite LG. now nn. Qed.
Lemma nan8 a b c d e : b <> f64_lit 1 0 -> eval_parametric O 8 [a; b; c; d; e] nan = Some nan.
Proof. intros B. ev. nn. rewrite (proj2 NP) by exact B. now nn. Qed.
Lemma nan_m8 a b c d e : nan_keeping lg -> eval_parametric O (-8) [a; b; c; d; e] nan =
  Some (if (f64_ltb (Babs a) tol64 || f64_ltb (Babs c) tol64)%bool then zero else nan).
Proof. intros LG. ev. nn. rewrite LG. now nn. Qed.
Lemma nan_m108 g : non_zero g -> eval_parametric O (-108) [g] nan = Some nan.
Proof. intros G. ev. rewrite (proj1 NP) by exact G. nn. rewrite (proj1 NP) by exact G. now nn. Qed.
Lemma nan109 k : nan_keeping ex -> eval_parametric O 109 [k] nan = Some nan.
Proof. intros EX. ev. unfold sigmoid_factory, sigmoid_base. ev. nn. rewrite EX. now nn. Qed.
Lemma nan_m109 k : nan_keeping lg -> eval_parametric O (-109) [k] nan = Some nan.
Proof. intros EX. ev. unfold inverted_sigmoid_factory, inverted_sigmoid_base. ev. nn. rewrite EX. now nn. Qed.
(** A reciprocal 1/g is zero only for an infinite g; it is NaN only for a NaN g. *)
Lemma recip_non_zero g : finite g -> non_zero (Bdiv mode_NE (f64_cst L1) g).
Proof.
  intros F s E. destruct g as [sg| | |sg m x B]; [now destruct sg|discriminate F|discriminate F|].
  destruct cst1 as (V1 & F1). set (g := B754_finite sg m x B) in *.
  assert (NZ : B2R g <> 0) by (unfold g; cbn [B2R]; destruct sg; [apply Rlt_not_eq, F2R_lt_0|apply Rgt_not_eq, F2R_gt_0]; reflexivity).
  destruct (ov_div (f64_cst L1) g F1 F NZ) as (O1 & _). rewrite E in O1. cbn [ov] in O1. rewrite V1 in O1.
  pose proof (abs_B2R_lt_emax 53 1024 g) as U.
  assert (L : bpow radix2 (-1024) <= Rabs (1 / B2R g)).
  { unfold Rdiv. rewrite Rmult_1_l, Rabs_inv. change (-1024)%Z with (- (1024))%Z. rewrite bpow_opp.
    apply Rinv_le_contravar; [now apply Rabs_pos_lt|lra]. }
  assert (L' : bpow radix2 (-1024) <= Rabs (rne (1 / B2R g))).
  { apply abs_round_ge_generic; [now apply fexp_correct|apply valid_rnd_round_mode| |exact L].
    apply generic_format_bpow. vm_compute. discriminate. }
  pose proof (bpow_gt_0 radix2 (-1024)). unfold cap in O1. pose proof top_pos.
  destruct (Rlt_bool_spec (Rabs (rne (1 / B2R g))) top).
  - rewrite <- O1 in L'. cbn [B2R] in L'. rewrite Rabs_R0 in L'. lra.
  - destruct (Rlt_bool _ _) in O1; cbn [B2R] in O1; lra.
Qed.
Lemma nan_m1 g : finite g -> eval_parametric O (-1) [g] nan = Some (if f64_ltb (Babs g) tol64 then f64_cst Lplus_inf else nan).
Proof. intros G. ev. nn. now rewrite (proj1 NP) by now apply recip_non_zero. Qed.
Lemma nan_m2 g a b : finite g -> eval_parametric O (-2) [g; a; b] nan =
  Some (if (f64_ltb (Babs g) tol64 || f64_ltb (Babs a) tol64)%bool then zero else nan).
Proof. intros G. ev. nn. rewrite (proj1 NP) by now apply recip_non_zero. now nn. Qed.
Lemma nan_m6 g a b c : finite g -> eval_parametric O (-6) [g; a; b; c] nan = Some (if f64_ltb (Babs a) tol64 then zero else nan).
Proof. intros G. ev. nn. rewrite (proj1 NP) by now apply recip_non_zero. now nn. Qed.
Lemma nan_m7 g a b c d : finite g -> eval_parametric O (-7) [g; a; b; c; d] nan =
  Some (if (f64_ltb g tol64 || f64_ltb a tol64 || f64_ltb b tol64)%bool then zero else nan).
Proof.
  intros G. ev. nn. assert (T : f64_cst L10 <> f64_lit 1 0).
  { intros H. assert (C : f64_ltb (f64_lit 1 0) (f64_cst L10) = true) by (vm_compute; reflexivity). rewrite H in C. vm_compute in C. discriminate. }
  rewrite (proj2 NP) by exact T. nn. now rewrite (proj1 NP) by now apply recip_non_zero.
Qed.
Lemma nan108 g : finite g -> eval_parametric O 108 [g] nan = Some (if f64_ltb (Babs g) tol64 then zero else nan).
Proof. intros G. ev. nn. rewrite (proj1 NP) by now apply recip_non_zero. nn. now rewrite (proj1 NP) by now apply recip_non_zero. Qed.
End Nan.

(** Facts that need nothing of the math library (C77). *)
Lemma abs_ov (x : f64) : ov (Babs x) = Rabs (ov x).
Proof.
  pose proof top_pos. destruct x as [s|[|]| |s m e B]; cbn [ov Babs B2R]; rewrite ?Rabs_R0; try reflexivity.
  - rewrite Rabs_Ropp, Rabs_pos_eq; lra.
  - rewrite Rabs_pos_eq; lra.
  - rewrite <- F2R_Zabs. destruct s; reflexivity.
Qed.
Lemma fin_fmt (x : f64) : fmt (B2R x). Proof. apply generic_format_B2R. Qed.
Lemma cap_fin (x : f64) : cap (B2R x) = B2R x. Proof. apply cap_small, abs_B2R_lt_emax. Qed.
Lemma minus_at_least x y (t : f64) : finite x -> finite y -> B2R t <= B2R x - B2R y -> B2R t <= ov (Bminus mode_NE x y).
Proof. intros X Y H. destruct (ov_minus x y X Y) as (-> & _). rewrite <- (cap_fin t). apply cap_mono, rne_ge; [apply fin_fmt|exact H]. Qed.
Lemma minus_at_most x y (t : f64) : finite x -> finite y -> B2R x - B2R y <= B2R t -> ov (Bminus mode_NE x y) <= B2R t.
Proof. intros X Y H. destruct (ov_minus x y X Y) as (-> & _). rewrite <- (cap_fin t). apply cap_mono, rne_le; [apply fin_fmt|exact H]. Qed.
Lemma minus_sterbenz x y : finite x -> finite y -> B2R y / 2 <= B2R x <= 2 * B2R y -> ov (Bminus mode_NE x y) = B2R x - B2R y.
Proof.
  intros X Y H. destruct (ov_minus x y X Y) as (-> & _). rewrite round_generic.
  - apply cap_small. pose proof (fin_bound x). pose proof (fin_bound y). apply Rabs_lt. lra.
  - apply valid_rnd_round_mode.
  - apply sterbenz; [now apply fexp_correct|apply FLT_exp_monotone|apply fin_fmt|apply fin_fmt|exact H].
Qed.
Section Libm.
Context (pow : f64 -> f64 -> f64) (lg ex : f64 -> f64).
Notation O := (f64_ops pow lg ex).
Notation tol64 := (f64_cst Ltol).
Ltac ev := unfold eval_parametric; cbn [nth_error f64_ops f_lit f_neg f_abs f_add f_sub f_mul f_div f_lt f_ge f_max f_pow f_log10 f_exp];
  rewrite ?cst0.
Lemma tol64_range : 0 < B2R tol64 < / 2.
Proof. rewrite (proj1 cst_tol). lra. Qed.
Lemma type1_negative64 g r : finite g -> lt64 r zero ->
  eval_parametric O 1 [g] r = Some (if Rlt_dec (Rabs (B2R g)) (1 + B2R tol64) then r else zero).
Proof.
  intros G R0. ev. apply ltb_lt64 in R0. rewrite R0. destruct cst1 as (V1 & F1). destruct cst_tol as (_ & FT). pose proof tol64_range as TR.
  assert (FA : finite (Babs g)) by now destruct g. assert (VA : B2R (Babs g) = Rabs (B2R g)) by apply B2R_Babs.
  pose proof (minus_number (Babs g) (f64_cst L1) (number_fin _ FA) F1) as N. apply number_nan in N.
  destruct (Rlt_dec (Rabs (B2R g)) (1 + B2R tol64)) as [L|L].
  - replace (f64_ltb _ _) with true; [reflexivity|]. symmetry. apply ltb_iff. split; [exact N|]. split; [now apply fin_not_nan|].
    rewrite (ov_fin tol64) by exact FT. destruct (Rle_dec (/ 2) (Rabs (B2R g))) as [H|H].
    + rewrite minus_sterbenz; [rewrite VA, V1; lra|exact FA|exact F1|rewrite VA, V1; lra].
    + apply Rle_lt_trans with (B2R zero); [|change (B2R zero) with 0; lra]. apply minus_at_most; [exact FA|exact F1|]. rewrite VA, V1. change (B2R zero) with 0. lra.
  - replace (f64_ltb (Bminus _ _ _) tol64) with false; [reflexivity|]. symmetry. apply Bool.not_true_iff_false. rewrite ltb_iff. intros (_ & _ & H).
    rewrite (ov_fin tol64) in H by exact FT. apply (Rlt_not_le _ _ H). apply minus_at_least; [exact FA|exact F1|]. rewrite VA, V1. lra.
Qed.
Lemma type_m1_negative64 g r : finite g -> lt64 r zero ->
  eval_parametric O (-1) [g] r = Some (if Rlt_dec (Rabs (B2R g - 1)) (B2R tol64) then r else zero).
Proof.
  intros G R0. ev. apply ltb_lt64 in R0. rewrite R0. destruct cst1 as (V1 & F1). destruct cst_tol as (_ & FT). pose proof tol64_range as TR.
  pose proof (minus_number g (f64_cst L1) (number_fin _ G) F1) as N. apply number_nan in N.
  assert (N' : is_nan (Babs (Bminus mode_NE g (f64_cst L1))) = false) by (now destruct (Bminus mode_NE g (f64_cst L1))).
  destruct (Rlt_dec (Rabs (B2R g - 1)) (B2R tol64)) as [L|L].
  - replace (f64_ltb _ _) with true; [reflexivity|]. symmetry. apply ltb_iff. split; [exact N'|]. split; [now apply fin_not_nan|].
    rewrite (ov_fin tol64) by exact FT. rewrite abs_ov. apply Rabs_lt_inv in L. rewrite minus_sterbenz; [rewrite V1; now apply Rabs_lt|exact G|exact F1|rewrite V1; lra].
  - replace (f64_ltb (Babs _) tol64) with false; [reflexivity|]. symmetry. apply Bool.not_true_iff_false. rewrite ltb_iff. intros (_ & _ & H).
    rewrite (ov_fin tol64) in H by exact FT. rewrite abs_ov in H. apply (Rlt_not_le _ _ H). apply Rnot_lt_le in L.
    destruct (Rle_dec 0 (B2R g - 1)) as [P|P].
    + rewrite Rabs_pos_eq in L by exact P. eapply Rle_trans; [|apply Rle_abs]. apply minus_at_least; [exact G|exact F1|]. rewrite V1. exact L.
    + rewrite Rabs_left in L by lra. rewrite <- Rabs_Ropp. eapply Rle_trans; [|apply Rle_abs].
      assert (X : ov (Bminus mode_NE g (f64_cst L1)) <= B2R (Bopp tol64)).
      { apply minus_at_most; [exact G|exact F1|]. rewrite V1, B2R_Bopp. lra. }
      rewrite B2R_Bopp in X. lra.
Qed.
(** With exp(-k) rounded to 1 the correction factor is infinite. *)
Lemma flat_sigmoid64 k r y : ex (Bmult mode_NE (Bopp k) (f64_cst L1)) = f64_cst L1 -> eval_parametric O 109 [k] r = Some y -> ~ finite y.
Proof.
  intros E. ev. unfold sigmoid_factory. ev. set (s := sigmoid_base O k (Bminus mode_NE _ _)). unfold sigmoid_base. ev. rewrite E.
  replace (Bdiv mode_NE (f64_cst Lhalf) _) with (B754_infinity false : f64) by (vm_compute; reflexivity).
  intros [= <-]. unfold finite. destruct s as [[|]|[|]| |[|] m x B]; cbn [Bmult]; vm_compute; discriminate.
Qed.
End Libm.
