(** Decimal numbers in messages. *)
From Coq Require Import DecimalFacts DecimalPos DecimalN.
From Coq Require Import String.
From Verif Require Import M_Base M_Context M_Profile S_Decimal.

Definition value_from (v : Z) (l : list Z) : Z := fold_left (fun v c => 10 * v + (c - 48)) l v.
Lemma digits_ok u : Forall (fun c => 48 <= c <= 57) (dec_digits u).
Proof. induction u; cbn; constructor; try assumption; lia. Qed.
Lemma digits_value u acc : value_from (Zpos acc) (dec_digits u) = Zpos (Pos.of_uint_acc u acc).
Proof.
  revert acc. induction u; intros acc; cbn [dec_digits Pos.of_uint_acc]; [reflexivity|..];
    unfold value_from in *; cbn [fold_left]; rewrite <- IHu; f_equal; lia.
Qed.
Lemma digits_value0 u : value_from 0 (dec_digits u) = Z.of_N (N.of_uint u).
Proof.
  induction u; [reflexivity|exact IHu|..]; unfold N.of_uint; cbn [dec_digits Pos.of_uint Z.of_N]; rewrite <- digits_value; reflexivity.
Qed.
Lemma unorm_head u r : dec_digits (Decimal.unorm u) = 48 :: r -> r = [].
Proof.
  induction u; cbn [Decimal.unorm]; try discriminate; [|assumption]. cbn. now intros [= <-].
Qed.
Lemma decimal_written n : 0 <= n -> written n (decimal n).
Proof.
  intros N. unfold decimal. split; [apply digits_ok|]. assert (U : N.to_uint (Z.to_N n) = Decimal.unorm (N.to_uint (Z.to_N n))).
  { rewrite <- (DecimalN.Unsigned.to_of (N.to_uint (Z.to_N n))). f_equal. now rewrite DecimalN.Unsigned.of_to. }
  split; [|split].
  - rewrite U. intros E. destruct (Decimal.unorm (N.to_uint (Z.to_N n))) eqn:F; try discriminate.
    rewrite DecimalN.Unsigned.of_to in U || idtac. now destruct (DecimalFacts.unorm_nonnil _ F).
  - intros r. rewrite U. apply unorm_head.
  - change (read_decimal (dec_digits (N.to_uint (Z.to_N n)))) with (value_from 0 (dec_digits (N.to_uint (Z.to_N n)))).
    rewrite digits_value0, DecimalN.Unsigned.of_to. lia.
Qed.

(** The writing is unique. *)
Lemma value_lower l v : Forall (fun c => 48 <= c <= 57) l -> 0 <= v -> v * 10 ^ Z.of_nat (length l) <= value_from v l < (v + 1) * 10 ^ Z.of_nat (length l).
Proof.
  revert v. induction l as [|c l IH]; intros v F V; [cbn; lia|]. inversion F; subst. cbn [value_from fold_left length].
  change (fold_left (fun v c => 10 * v + (c - 48)) l (10 * v + (c - 48))) with (value_from (10 * v + (c - 48)) l).
  specialize (IH (10 * v + (c - 48)) H2 ltac:(lia)). rewrite Nat2Z.inj_succ, Z.pow_succ_r by lia. pose proof (Z.pow_pos_nonneg 10 (Z.of_nat (length l)) ltac:(lia) ltac:(lia)). nia.
Qed.
Lemma value_inj l l' v v' : Forall (fun c => 48 <= c <= 57) l -> Forall (fun c => 48 <= c <= 57) l' -> 0 <= v -> 0 <= v' ->
  length l = length l' -> value_from v l = value_from v' l' -> v = v' /\ l = l'.
Proof.
  revert l' v v'. induction l as [|c l IH]; intros [|c' l'] v v' F F' V V' L E; try discriminate; [now split|].
  inversion F; inversion F'; subst. cbn [value_from fold_left] in E.
  destruct (IH l' (10 * v + (c - 48)) (10 * v' + (c' - 48))) as (A & ->); try assumption; try lia; [now injection L|].
  split; [lia|f_equal; lia].
Qed.
Lemma written_length n l l' : written n l -> written n l' -> (length l <= length l')%nat.
Proof.
  intros (F & NE & H & V) (F' & NE' & H' & V'). destruct (Nat.le_gt_cases (length l) (length l')) as [L|L]; [exact L|exfalso].
  destruct l as [|c r]; [now destruct NE|]. inversion F as [|? ? C Fr]; subst. pose proof (value_lower l' 0 F' ltac:(lia)) as B'.
  change (value_from 0 l') with (read_decimal l') in B'. rewrite V' in B'.
  assert (B : (c - 48) * 10 ^ Z.of_nat (length r) <= read_decimal (c :: r)) by (apply (value_lower r (c - 48) Fr); lia).
  destruct (Z.eq_dec c 48) as [->|N].
  - specialize (H r eq_refl). subst r. destruct l'; [now destruct NE'|cbn in L; lia].
  - cbn [length] in L. assert (10 ^ Z.of_nat (length l') <= 10 ^ Z.of_nat (length r)) by (apply Z.pow_le_mono_r; lia).
    pose proof (Z.pow_pos_nonneg 10 (Z.of_nat (length r)) ltac:(lia) ltac:(lia)). nia.
Qed.
Lemma written_unique n l l' : written n l -> written n l' -> l = l'.
Proof.
  intros W W'. assert (L : length l = length l') by (apply Nat.le_antisymm; eapply written_length; eassumption).
  destruct W as (F & _ & _ & V), W' as (F' & _ & _ & V'). apply (value_inj l l' 0 0 F F' ltac:(lia) ltac:(lia) L). 
  change (read_decimal l = read_decimal l'). now rewrite V, V'.
Qed.

Lemma messages_written :
  (forall n, 0 <= n -> exists l, written n l /\ msg_too_many n = text "Too many tags " ++ l) /\
  (forall v, 0 <= v -> exists l, written v l /\ msg_version v = text "plugin needs Little CMS " ++ l ++ text ", current version is 2131").
Proof. split; intros n N; exists (decimal n); (split; [now apply decimal_written|]); reflexivity. Qed.
Lemma wrote_4290 : written 4290 (text "4290") /\ ~ written 4290 (text "04290") /\ written 0 (text "0").
Proof.
  split; [exact (decimal_written 4290 ltac:(lia))|]. split; [|exact (decimal_written 0 ltac:(lia))]. intros (_ & _ & H & _). specialize (H _ eq_refl). discriminate H.
Qed.
