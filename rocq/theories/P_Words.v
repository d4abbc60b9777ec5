(** Proofs: 16-bit words through the curves (C113). *)
From Coq Require Import ZArith Reals Lra Lia List.
From Flocq Require Import Core IEEE754.BinarySingleNaN.
From Verif Require Import M_Base M_F64 M_Curve M_CurveF64 S_Exact S_Curve S_F64 S_Accuracy S_Return S_Words S_Srgb P_S15 P_F64 P_CurveErr P_CurveErr3 P_CurveErr4 P_Srgb P_Ideal P_CurveErr2 P_Acc Props_Curve4 Props_Curve5 Props_Return.
Open Scope R_scope.

Lemma word_of n x z t : (0 <= n <= 65535)%Z -> Rabs (x - IZR n / 65535) <= / IZR (2 ^ 53) -> is_finite z = true -> Rabs (B2R z - x) <= t -> t <= / IZR (2 ^ 29) -> to_word z = n.
Proof.
  intros N X _ Z T. unfold to_word. apply Zfloor_imp. rewrite plus_IZR. apply Rabs_le_inv in X, Z.
  set (q := IZR n / 65535) in *. assert (Q : IZR n = 65535 * q) by (unfold q; field). rewrite Q.
  change (2 ^ 53)%Z with 9007199254740992%Z in X. change (2 ^ 29)%Z with 536870912%Z in T. lra.
Qed.
Lemma word_in n x : (0 <= n <= 65535)%Z -> from_word n x ->
  finite x /\ Rabs (B2R x - IZR n / 65535) <= / IZR (2 ^ 53) /\ 0 <= B2R x <= 1 /\ ((1 <= n)%Z -> / 65536 <= B2R x).
Proof.
  intros N (F & E). set (q := IZR n / 65535) in *.
  assert (Q : 0 <= q <= 1).
  { assert (0 <= IZR n <= 65535) by (split; apply IZR_le; lia). unfold q. lra. }
  assert (V : Valid_exp (FLT_exp (-1074) 53)) by (apply FLT_exp_valid; reflexivity).
  assert (B : Rabs (nearest q - q) <= / IZR (2 ^ 53)).
  { unfold nearest. eapply Rle_trans; [apply error_le_half_ulp; exact V|].
    assert (U : ulp radix2 (FLT_exp (-1074) 53) q <= ulp radix2 (FLT_exp (-1074) 53) 1).
    { apply ulp_le; [exact V|apply FLT_exp_monotone|]. rewrite !Rabs_right by lra. lra. }
    replace (ulp radix2 (FLT_exp (-1074) 53) 1) with (bpow radix2 (-52)) in U.
    - change (bpow radix2 (-52)) with (/ IZR (2 ^ 52)) in U. change (2 ^ 52)%Z with 4503599627370496%Z in U. change (2 ^ 53)%Z with 9007199254740992%Z. lra.
    - change 1 with (bpow radix2 0). rewrite ulp_bpow. reflexivity. }
  split; [exact F|]. rewrite E. split; [exact B|]. split.
  - split.
    + unfold nearest. apply round_ge_generic; [exact V|apply valid_rnd_N|apply generic_format_0|lra].
    + unfold nearest. apply round_le_generic; [exact V|apply valid_rnd_N| |lra]. change 1 with (bpow radix2 0). apply generic_format_bpow. cbn. lia.
  - intros P. assert (1 / 65535 <= q) by (unfold q; apply IZR_le in P; lra). apply Rabs_le_inv in B. change (2 ^ 53)%Z with 9007199254740992%Z in B. lra.
Qed.

Section Words.
  Context (pow : f64 -> f64 -> f64) (lg ex : f64 -> f64) (POW : accurate_pow (2 * ulp_half) pow).
  Local Notation ev := (eval_parametric (f64_ops pow lg ex)).

  Lemma words1 g n x : finite g -> / 4 <= B2R g <= 4 -> (1 <= n <= 65535)%Z -> from_word n x ->
    forall t, t = 1%Z \/ t = (-1)%Z -> exists y z, ev t [g] x = Some y /\ ev (- t)%Z [g] y = Some z /\ to_word z = n.
  Proof.
    intros FG G N W t T. destruct (word_in n x ltac:(lia) W) as (FX & X & (X0 & X1) & XL). specialize (XL ltac:(lia)).
    assert (PX : positive x) by (split; [exact FX|lra]).
    assert (E : / IZR (2 ^ 48) * B2R x <= / IZR (2 ^ 29)) by (change (2 ^ 48)%Z with 281474976710656%Z; change (2 ^ 29)%Z with 536870912%Z; lra).
    destruct T as [-> | ->].
    - destruct (C80_forward_then_reverse pow lg ex POW g x FG G PX ltac:(lra)) as (y & z & A & B & FZ & H). exists y, z. split; [exact A|]. split; [exact B|].
      exact (word_of n (B2R x) z _ ltac:(lia) X FZ H E).
    - destruct (C80_reverse_then_forward pow lg ex POW g x FG G PX ltac:(lra)) as (y & z & A & B & FZ & H). exists y, z. split; [exact A|]. split; [exact B|].
      exact (word_of n (B2R x) z _ ltac:(lia) X FZ H E).
  Qed.
  Lemma words36 g a b c n x : finite g -> / 4 <= B2R g <= 4 -> finite a -> / 4 <= B2R a <= 4 -> finite b -> 0 <= B2R b <= 1 ->
    finite c -> Rabs (B2R c) <= 1 -> (0 <= n <= 65535)%Z -> from_word n x -> / 16 <= B2R a * B2R x + B2R b ->
    forall t, t = 3%Z \/ t = 6%Z -> exists y z, ev t [g; a; b; c] x = Some y /\ ev (- t)%Z [g; a; b; c] y = Some z /\ to_word z = n.
  Proof.
    intros FG G FA A FB B FC C N W P t T. destruct (word_in n x ltac:(lia) W) as (FX & X & X01 & _).
    destruct (C100_ordinary pow lg ex POW g a b c x FG G FA A FB B FC C FX X01 P t T) as (y & z & E1 & E2 & FZ & H). exists y, z. split; [exact E1|]. split; [exact E2|].
    eapply word_of; [exact N|exact X|exact FZ|exact H|]. change (2 ^ 31)%Z with 2147483648%Z. change (2 ^ 29)%Z with 536870912%Z. lra.
  Qed.
  Lemma words7 (LOG : accurate_log ulp_half lg) g a b c d n x : finite g -> / 4 <= B2R g <= 4 -> finite a -> / 4 <= B2R a <= 4 -> finite b -> / 4 <= B2R b <= 4 ->
    finite c -> 0 <= B2R c <= 1 -> finite d -> Rabs (B2R d) <= 1 -> (1 <= n <= 65535)%Z -> from_word n x -> / 256 <= B2R b * Rpower (B2R x) (B2R g) ->
    exists y z, ev 7 [g; a; b; c; d] x = Some y /\ ev (-7) [g; a; b; c; d] y = Some z /\ to_word z = n.
  Proof.
    intros FG G FA A FB B FC C FD D N W P. destruct (word_in n x ltac:(lia) W) as (FX & X & X01 & XL). specialize (XL ltac:(lia)).
    destruct (C100_ordinary_log pow lg ex POW LOG g a b c d x FG G FA A FB B FC C FD D FX ltac:(lra) P) as (y & z & E1 & E2 & FZ & H). exists y, z. split; [exact E1|]. split; [exact E2|].
    eapply word_of; [lia|exact X|exact FZ|exact H|apply Rle_refl].
  Qed.
  Lemma words8 (LOG : accurate_log ulp_half lg) a b c d e n x : finite a -> / 4 <= B2R a <= 4 -> finite b -> 2 <= B2R b <= 16 -> finite c -> / 4 <= B2R c <= 4 ->
    finite d -> Rabs (B2R d) <= 2 -> finite e -> Rabs (B2R e) <= 1 -> (0 <= n <= 65535)%Z -> from_word n x ->
    exists y z, ev 8 [a; b; c; d; e] x = Some y /\ ev (-8) [a; b; c; d; e] y = Some z /\ to_word z = n.
  Proof.
    intros FA A FB B FC C FD D FE E N W. destruct (word_in n x ltac:(lia) W) as (FX & X & X01 & _).
    destruct (C100_ordinary_exp pow lg ex POW LOG a b c d e x FA A FB B FC C FD D FE E FX X01) as (y & z & E1 & E2 & FZ & H). exists y, z. split; [exact E1|]. split; [exact E2|].
    eapply word_of; [exact N|exact X|exact FZ|exact H|]. change (2 ^ 38)%Z with 274877906944%Z. change (2 ^ 29)%Z with 536870912%Z. lra.
  Qed.
  Lemma words108 g n x : finite g -> / 2 <= B2R g <= 2 -> (4096 <= n <= 61439)%Z -> from_word n x ->
    exists y z, ev 108 [g] x = Some y /\ ev (-108) [g] y = Some z /\ to_word z = n.
  Proof.
    intros FG G N W. destruct (word_in n x ltac:(lia) W) as (FX & X & X01 & _).
    assert (R : / 16 <= B2R x <= 15 / 16).
    { assert (4096 <= IZR n <= 61439) by (split; apply IZR_le; lia). apply Rabs_le_inv in X. change (2 ^ 53)%Z with 9007199254740992%Z in X. lra. }
    destruct (C100_ordinary_s pow lg ex POW g x FG G FX R) as (y & z & E1 & E2 & FZ & H). exists y, z. split; [exact E1|]. split; [exact E2|].
    eapply word_of; [lia|exact X|exact FZ|exact H|apply Rle_refl].
  Qed.
  Lemma words2 g a b n x : finite g -> / 4 <= B2R g <= 4 -> finite a -> / 4 <= B2R a <= 4 -> finite b -> 0 <= B2R b <= 1 ->
    (1 <= n <= 65535)%Z -> from_word n x ->
    exists y z, ev 2 [g; a; b] x = Some y /\ ev (-2) [g; a; b] y = Some z /\ to_word z = n.
  Proof.
    intros FG G FA A FB B N W. destruct (word_in n x ltac:(lia) W) as (FX & X & X01 & XL). specialize (XL ltac:(lia)).
    pose proof tol64_small as T. pose proof u_tiny as U. pose proof ln2_upper as L2u. pose proof ln2_lower as L2l.
    assert (U0 : 0 < ulp_half) by (unfold ulp_half; apply Rinv_0_lt_compat, IZR_lt; reflexivity).
    set (P := B2R a * B2R x + B2R b).
    assert (PL : / 262144 <= P) by (unfold P; nra). assert (PU : P <= 8) by (unfold P; nra).
    assert (LP : Rabs (ln P) <= 18).
    { apply Rabs_le. split.
      - destruct (Rle_lt_or_eq_dec (/ 262144) P PL) as [H|H].
        + apply Rle_trans with (ln (/ 262144)); [|left; apply ln_increasing; lra].
          rewrite ln_Rinv by lra. replace 262144 with (2 ^ 18) by lra. rewrite ln_pow by lra. cbn [INR]. lra.
        + rewrite <- H, ln_Rinv by lra. replace 262144 with (2 ^ 18) by lra. rewrite ln_pow by lra. cbn [INR]. lra.
      - apply Rle_trans with (ln 8).
        + destruct (Rle_lt_or_eq_dec P 8 PU) as [H|H]; [left; apply ln_increasing; lra|rewrite H; lra].
        + replace 8 with (2 ^ 3) by lra. rewrite ln_pow by lra. cbn [INR]. lra. }
    pose proof (Rabs_pos (ln P)) as LP0.
    destruct (C81_type2 pow lg ex (2 * ulp_half) POW g a b FG ltac:(lra) FA ltac:(lra) FB ltac:(lra) ltac:(lra) ltac:(lra) x FX ltac:(lra) ltac:(fold P; lra) ltac:(fold P; lra) ltac:(fold P; nra)) as (y & z & E1 & E2 & FZ & H).
    exists y, z. split; [exact E1|]. split; [exact E2|].
    eapply word_of; [lia|exact X|exact FZ|exact H|]. fold P.
    set (t := (1 + (1 + ulp_half) / B2R g) * (2 * ulp_half) + ulp_half * (Rabs (ln P) + 1)).
    assert (I : 0 < / B2R g <= 4).
    { split; [apply Rinv_0_lt_compat; lra|]. replace 4 with (/ / 4) by lra. apply Rinv_le; lra. }
    assert (TT : 0 <= t <= 40 * ulp_half) by (unfold t, Rdiv; split; nra).
    assert (EX : exp t - 1 <= 2 * t).
    { assert (1 - t <= exp (- t)) by (pose proof (exp_ineq1_le (- t)); lra).
      assert (exp t * exp (- t) = 1) by (rewrite <- exp_plus; replace (t + - t) with 0 by lra; apply exp_0).
      pose proof (exp_pos t). assert (t <= / 4) by lra. nra. }
    assert (EX0 : 0 <= exp t - 1) by (pose proof (exp_ineq1_le t); lra).
    assert (Q : 0 <= B2R x + B2R b / B2R a <= 5).
    { assert (0 < / B2R a <= 4). { split; [apply Rinv_0_lt_compat; lra|]. replace 4 with (/ / 4) by lra. apply Rinv_le; lra. }
      unfold Rdiv. split; nra. }
    apply Rle_trans with (168 * ulp_half * 5); [apply Rmult_le_compat; lra|].
    unfold ulp_half. change (2 ^ 53)%Z with 9007199254740992%Z. change (2 ^ 29)%Z with 536870912%Z. lra.
  Qed.
  Lemma words_srgb (MON : monotone_pow pow) g a b c d n x : srgb_params (/ 10000000000) g a b c d -> (0 <= n <= 65535)%Z -> from_word n x ->
    exists y z, ev 4 [g; a; b; c; d] x = Some y /\ ev (-4) [g; a; b; c; d] y = Some z /\ to_word z = n.
  Proof.
    intros S N W. destruct (word_in n x N W) as (FX & X & X01 & _).
    destruct (C82_srgb_round_trip pow lg ex POW MON g a b c d S x FX X01) as (y & z & E1 & E2 & FZ & H). exists y, z. split; [exact E1|]. split; [exact E2|].
    eapply word_of; [exact N|exact X|exact FZ|exact H|].
    assert (bpow radix2 (-1060) <= bpow radix2 (-40)) by (apply bpow_le; lia). change (bpow radix2 (-40)) with (/ IZR (2 ^ 40)) in H0.
    change (2 ^ 40)%Z with 1099511627776%Z in H0. change (2 ^ 47)%Z with 140737488355328%Z. change (2 ^ 29)%Z with 536870912%Z. lra.
  Qed.
End Words.

(** Every word has its number. *)
Lemma word_number n : (0 <= n <= 65535)%Z -> exists x, from_word n x.
Proof.
  intros N. destruct (f64_lit_exact n 0 ltac:(lia) ltac:(lia)) as (VN & FN). destruct (f64_lit_exact 65535 0 ltac:(lia) ltac:(lia)) as (VD & FD).
  cbn [bpow] in VN, VD. rewrite Rmult_1_r in VN, VD.
  exists (Bdiv mode_NE (f64_lit n 0) (f64_lit 65535 0)).
  pose proof (Bdiv_correct 53 1024 _ _ mode_NE (f64_lit n 0) (f64_lit 65535 0) ltac:(rewrite VD; lra)) as H. rewrite VN, VD in H.
  assert (Q : 0 <= IZR n / 65535 <= 1). { assert (0 <= IZR n <= 65535) by (split; apply IZR_le; lia). lra. }
  rewrite Rlt_bool_true in H.
  - destruct H as (V & F & _). rewrite FN in F. split; [exact F|exact V].
  - apply Rle_lt_trans with 1; [|apply (bpow_lt radix2 0 1024); lia]. apply abs_round_le_generic; [apply FLT_exp_valid; reflexivity|apply valid_rnd_N| |rewrite Rabs_pos_eq; lra].
    change 1 with (bpow radix2 0). apply generic_format_bpow. cbn. lia.
Qed.
