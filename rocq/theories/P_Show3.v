(** The texts of dates. *)
From Coq Require Import String.
From Verif Require Import M_Base M_Signature M_Context M_Header M_Profile M_Debug M_Show M_Show2 S_Bytes S_Decimal S_Header S_Profile S_Show S_Show2 P_Decimal P_Show P_Show2.
Local Open Scope list_scope.
Local Open Scope Z_scope.

Notation digit := (fun c => 48 <= c <= 57).
Lemma decimal_length w n : (0 < w)%nat -> 0 <= n < 10 ^ Z.of_nat w -> (List.length (decimal n) <= w)%nat.
Proof.
  intros W (N & B). destruct (decimal_written n N) as (F & NE & H & V). destruct (decimal n) as [|c r]; [now destruct NE|]. inversion F as [|? ? C Fr]; subst.
  destruct (Z.eq_dec c 48) as [->|D]; [rewrite (H r eq_refl); cbn; lia|].
  pose proof (value_lower r (c - 48) Fr ltac:(lia)) as (L & _). change (value_from (c - 48) r) with (read_decimal (c :: r)) in L.
  cbn [length]. destruct (Nat.le_gt_cases (S (List.length r)) w) as [G|G]; [exact G|exfalso].
  assert (10 ^ Z.of_nat w <= 10 ^ Z.of_nat (List.length r)) by (apply Z.pow_le_mono_r; lia).
  pose proof (Z.pow_pos_nonneg 10 (Z.of_nat (List.length r)) ltac:(lia) ltac:(lia)). nia.
Qed.
Lemma read_zeros k l : read_decimal (repeat 48 k ++ l) = read_decimal l.
Proof. induction k; [reflexivity|exact IHk]. Qed.
Lemma padded_digits w n : 0 <= n -> Forall digit (zero_padded w n).
Proof. intros N. apply Forall_app. split; [apply Forall_forall; intros c I; apply repeat_spec in I; lia|now apply decimal_digits]. Qed.
Lemma padded_value w n : 0 <= n -> read_decimal (zero_padded w n) = n.
Proof. intros N. unfold zero_padded. rewrite read_zeros. now apply decimal_written. Qed.
Lemma padded_injective w n n' : 0 <= n -> 0 <= n' -> zero_padded w n = zero_padded w n' -> n = n'.
Proof. intros N N' E. rewrite <- (padded_value w n N), <- (padded_value w n' N'). now rewrite E. Qed.
Lemma padded_length w n : (0 < w)%nat -> 0 <= n < 10 ^ Z.of_nat w -> List.length (zero_padded w n) = w.
Proof. intros W N. unfold zero_padded. rewrite app_length, repeat_length. pose proof (decimal_length w n W N). lia. Qed.
Lemma padded_fixed w n : (0 < w)%nat -> 0 <= n < 10 ^ Z.of_nat w -> fixed w n (zero_padded w n).
Proof. intros W N. split; [now apply padded_length|]. split; [apply padded_digits; lia|apply padded_value; lia]. Qed.
Lemma padded_head w n : 0 <= n -> exists c r, zero_padded w n = c :: r /\ 48 <= c <= 57.
Proof.
  intros N. pose proof (padded_digits w n N) as F. destruct (zero_padded w n) as [|c r] eqn:E.
  - apply app_eq_nil in E as (_ & E). destruct (decimal_digits n N) as (_ & NE). contradiction.
  - exists c, r. split; [reflexivity|now inversion F].
Qed.
(** A number in front of a character that is no digit. *)
Lemma padded_read w n n' c c' s s' : 0 <= n -> 0 <= n' -> ~ digit c -> ~ digit c' -> zero_padded w n ++ c :: s = zero_padded w n' ++ c' :: s' -> n = n' /\ s = s'.
Proof.
  intros N N' C C' E. destruct (span digit (zero_padded w n) (zero_padded w n') (c :: s) (c' :: s')) as (A & B); auto using padded_digits.
  - now intros ? ? [= <- _].
  - now intros ? ? [= <- _].
  - injection B as _ B. split; [now apply (padded_injective w)|exact B].
Qed.

Lemma year_read d d' s s' :
  let y d := if (0 <=? nd_year d) && (nd_year d <=? 9999) then zero_padded 4 (nd_year d) else [if nd_year d <? 0 then 45 else 43] ++ zero_padded 4 (Z.abs (nd_year d)) in
  y d ++ 45 :: s = y d' ++ 45 :: s' -> nd_year d = nd_year d' /\ s = s'.
Proof.
  cbv beta zeta. generalize (nd_year d) (nd_year d'). intros y y' E.
  destruct ((0 <=? y) && (y <=? 9999)) eqn:R, ((0 <=? y') && (y' <=? 9999)) eqn:R'.
  - apply padded_read in E; lia || assumption.
  - destruct (padded_head 4 y ltac:(lia)) as (c & r & H & C). rewrite H in E. injection E as E _. destruct (y' <? 0); lia.
  - destruct (padded_head 4 y' ltac:(lia)) as (c & r & H & C). rewrite H in E. injection E as E _. destruct (y <? 0); lia.
  - injection E as E1 E. apply padded_read in E; [|lia..]. destruct E as (E & ->). split; [|reflexivity]. destruct (Z.ltb_spec y 0), (Z.ltb_spec y' 0); lia.
Qed.

Definition fraction (nano : Z) : list Z :=
  if nano =? 0 then [] else if nano mod 1000000 =? 0 then text "." ++ zero_padded 3 (nano / 1000000)
  else if nano mod 1000 =? 0 then text "." ++ zero_padded 6 (nano / 1000) else text "." ++ zero_padded 9 nano.
Lemma fraction_injective n n' : 0 <= n < 1000000000 -> 0 <= n' < 1000000000 -> fraction n = fraction n' -> n = n'.
Proof.
  intros N N'.
  assert (L : forall n, 0 <= n < 1000000000 ->
    (n = 0 /\ fraction n = []) \/
    exists k w, (k = 1000000 /\ w = 3%nat \/ k = 1000 /\ w = 6%nat \/ k = 1 /\ w = 9%nat) /\ n = n / k * k /\ fraction n = 46 :: zero_padded w (n / k) /\ List.length (zero_padded w (n / k)) = w).
  { clear. intros n N. unfold fraction. destruct (Z.eqb_spec n 0) as [->|NZ]; [now left|right].
    destruct (Z.eqb_spec (n mod 1000000) 0) as [A|A]; [|destruct (Z.eqb_spec (n mod 1000) 0) as [B|B]].
    - exists 1000000, 3%nat. split; [auto|]. split; [Z.div_mod_to_equations; lia|]. split; [reflexivity|]. apply padded_length; [lia|]. change (10 ^ Z.of_nat 3) with 1000. Z.div_mod_to_equations; lia.
    - exists 1000, 6%nat. split; [auto|]. split; [Z.div_mod_to_equations; lia|]. split; [reflexivity|]. apply padded_length; [lia|]. change (10 ^ Z.of_nat 6) with 1000000. Z.div_mod_to_equations; lia.
    - exists 1, 9%nat. split; [auto|]. rewrite Z.div_1_r. split; [lia|]. split; [reflexivity|]. apply padded_length; [lia|]. change (10 ^ Z.of_nat 9) with 1000000000. lia. }
  intros E. destruct (L n N) as [(-> & F)|(k & w & K & M & F & G)], (L n' N') as [(-> & F')|(k' & w' & K' & M' & F' & G')]; rewrite F in E; rewrite ?F' in E; try discriminate; [reflexivity|].
  injection E as E. assert (W : w = w') by (rewrite <- G, <- G'; now f_equal). assert (KK : k = k') by lia. subst w' k'.
  apply padded_injective in E; [rewrite M, M'; now rewrite E|apply Z.div_pos; lia..].
Qed.

Definition shown_sec (d : NaiveDateTime) : Z := if 1000000000 <=? nd_nano d then nd_sec d + 1 else nd_sec d.
Definition shown_nano (d : NaiveDateTime) : Z := if 1000000000 <=? nd_nano d then nd_nano d - 1000000000 else nd_nano d.
Lemma time_text d : chrono_time d = zero_padded 2 (nd_hour d) ++ text ":" ++ zero_padded 2 (nd_min d) ++ text ":" ++ zero_padded 2 (shown_sec d) ++ fraction (shown_nano d).
Proof. reflexivity. Qed.
Lemma fraction_head n c r : fraction n = c :: r -> c = 46.
Proof. unfold fraction. destruct (n =? 0); [discriminate|]. destruct (n mod 1000000 =? 0); [now intros [= <- _]|]. destruct (n mod 1000 =? 0); now intros [= <- _]. Qed.

Lemma real_fields d : real_nd d -> 1 <= nd_month d <= 12 /\ 1 <= nd_day d <= 31 /\ 0 <= nd_hour d <= 23 /\ 0 <= nd_min d <= 59 /\ 0 <= nd_sec d <= 59.
Proof. intros (_ & (n & D & B) & T). unfold real_time in T. inversion D; subst; lia. Qed.
(** What the text of a date tells. *)
Lemma date_text_same d d' : chrono_nd d -> chrono_nd d' -> show_nd d = show_nd d' ->
  nd_year d = nd_year d' /\ nd_month d = nd_month d' /\ nd_day d = nd_day d' /\ nd_hour d = nd_hour d' /\ nd_min d = nd_min d' /\
  shown_sec d = shown_sec d' /\ shown_nano d = shown_nano d'.
Proof.
  intros (R & N) (R' & N') [= E]. pose proof (real_fields d R) as F. pose proof (real_fields d' R') as F'. rewrite !time_text in E. unfold chrono_date in E.
  rewrite <- !app_assoc in E. cbn [text app] in E.
  apply (year_read d d') in E as (Y & E). apply padded_read in E as (M & E); [|cbn; lia..]. apply padded_read in E as (D & E); [|cbn; lia..].
  apply padded_read in E as (H & E); [|cbn; lia..]. apply padded_read in E as (MI & E); [|cbn; lia..].
  assert (S : 0 <= shown_sec d) by (unfold shown_sec; destruct (1000000000 <=? nd_nano d); lia).
  assert (S' : 0 <= shown_sec d') by (unfold shown_sec; destruct (1000000000 <=? nd_nano d'); lia).
  assert (FR : forall n c r, fraction n = c :: r -> ~ digit c) by (intros n c r G; apply fraction_head in G; lia).
  destruct (span digit _ _ _ _ (padded_digits 2 _ S) (padded_digits 2 _ S') (FR _) (FR _) E) as (A & B).
  apply padded_injective in A; [|assumption..]. apply fraction_injective in B; [tauto|unfold shown_nano..].
  - destruct (Z.leb_spec 1000000000 (nd_nano d)); lia.
  - destruct (Z.leb_spec 1000000000 (nd_nano d')); lia.
Qed.
Lemma nd_same d d' : proper_nd d -> proper_nd d' -> show_nd d = show_nd d' -> d = d'.
Proof.
  intros (C & P) (C' & P') E. destruct (date_text_same d d' C C' E) as (Y & M & D & H & MI & S & N). destruct C as (R & C), C' as (R' & C').
  apply real_fields in R, R'. unfold shown_sec, shown_nano in S, N. destruct d, d'. cbn in *.
  destruct (Z.leb_spec 1000000000 nd_nano), (Z.leb_spec 1000000000 nd_nano0); f_equal; lia.
Qed.
Lemma padded_atom w n : 0 <= n -> Forall atom_char (zero_padded w n).
Proof. intros N. eapply Forall_impl; [|apply (padded_digits w n N)]. intros c C. cbv beta in C. left. unfold ident_char. lia. Qed.
Definition atom_charb (c : Z) : bool := ident_charb c || (c =? 43) || (c =? 45) || (c =? 46) || (c =? 58).
Lemma atomb_atom l : forallb atom_charb l = true -> Forall atom_char l.
Proof.
  intros H. apply Forall_forall. rewrite forallb_forall in H. intros c I. specialize (H c I). unfold atom_charb in H. unfold atom_char, ident_char, ident_charb in *. cbn [In text].
  cbn. lia.
Qed.
Lemma wf_nd d : chrono_nd d -> well_formed (show_nd d).
Proof.
  intros (R & N). pose proof (real_fields d R) as F. cbn [well_formed show_nd]. rewrite time_text. unfold chrono_date. split.
  - rewrite !Forall_app. repeat split; try (apply padded_atom; lia); try (apply atomb_atom; reflexivity).
    + destruct ((0 <=? nd_year d) && (nd_year d <=? 9999)) eqn:Y; [apply padded_atom; lia|]. constructor; [right; cbn; destruct (nd_year d <? 0); lia|apply padded_atom; lia].
    + apply padded_atom. unfold shown_sec. destruct (1000000000 <=? nd_nano d); lia.
    + assert (SN : 0 <= shown_nano d) by (unfold shown_nano; destruct (Z.leb_spec 1000000000 (nd_nano d)); lia).
      unfold fraction. destruct (_ =? _); [constructor|]. destruct (_ =? _); [|destruct (_ =? _)]; (apply Forall_app; split; [repeat constructor; right; cbn; lia|]); apply padded_atom; first [assumption|apply Z.div_pos; lia].
  - assert (T : forall c r s, ~ Forall digit ((c :: r) ++ 45 :: s) /\ (48 <= c <= 57 -> ~ Forall digit (r ++ 45 :: s)) /\ ~ Forall digit (r ++ 45 :: s)).
    { intros c r s. assert (G : ~ Forall digit (r ++ 45 :: s)) by (intros A; apply Forall_app in A as (_ & A); inversion A; lia).
      split; [intros A; inversion A; contradiction|tauto]. }
    destruct ((0 <=? nd_year d) && (nd_year d <=? 9999)) eqn:Y.
    + destruct (padded_head 4 (nd_year d) ltac:(lia)) as (c & r & H & C). rewrite H. rewrite <- !app_assoc. cbn [app text]. eexists. eexists. split; [reflexivity|]. split; [tauto|]. exact (proj2 (proj2 (T c r _))).
    + rewrite <- !app_assoc. cbn [app text]. eexists. eexists. split; [reflexivity|]. split; [right; cbn; destruct (nd_year d <? 0); lia|]. exact (proj2 (proj2 (T 0 _ _))).
Qed.
Lemma nds_tell : tells proper_nd show_nd.
Proof. apply texts_tell; [intros a (A & _); now apply wf_nd|exact nd_same]. Qed.

Lemma nd_iso d u : real_nd d -> 0 <= nd_year d <= 9999 -> nd_nano d = 0 -> iso8601 d (compact u (show_nd d)) /\ pretty u (show_nd d) = compact u (show_nd d).
Proof.
  intros R Y N. split; [|reflexivity]. pose proof (real_fields d R) as F. cbn [compact show_nd]. rewrite time_text. unfold chrono_date, shown_sec, shown_nano. rewrite N. cbn [Z.leb Z.compare fraction Z.eqb].
  replace ((0 <=? nd_year d) && (nd_year d <=? 9999)) with true by lia. rewrite app_nil_r, <- !app_assoc. do 6 eexists. split; [reflexivity|].
  assert (B : 10 ^ Z.of_nat 2 = 100) by reflexivity. repeat split; try (apply padded_length; [lia|]; change (10 ^ Z.of_nat 4) with 10000; lia); try (apply padded_digits; lia); apply padded_value; lia.
Qed.
(** The length of the text and the years outside. *)
Lemma iso_length d l : iso8601 d l -> List.length l = 19%nat.
Proof. intros (y & m & dd & h & mi & s & -> & (Y & _) & (M & _) & (D & _) & (H & _) & (MI & _) & (S & _)). rewrite !app_length, Y, M, D, H, MI, S. reflexivity. Qed.
Lemma iso_unique d d' l : nd_nano d = nd_nano d' -> iso8601 d l -> iso8601 d' l -> d = d'.
Proof.
  intros NN (y & m & dd & h & mi & s & -> & (Y & _ & Yv) & (M & _ & Mv) & (D & _ & Dv) & (H & _ & Hv) & (MI & _ & MIv) & (S & _ & Sv))
    (y' & m' & dd' & h' & mi' & s' & E & (Y' & _ & Yv') & (M' & _ & Mv') & (D' & _ & Dv') & (H' & _ & Hv') & (MI' & _ & MIv') & (S' & _ & Sv')).
  assert (A : forall (a a' r r' : list Z), List.length a = List.length a' -> a ++ r = a' ++ r' -> a = a' /\ r = r').
  { clear. induction a as [|x a IH]; intros [|x' a'] r r' L E; try discriminate; [now split|]. injection E as -> E. destruct (IH a' r r') as (-> & ->); auto. }
  repeat (apply A in E as (?E & E); [|congruence]). clear A. destruct d, d'. cbn in *. congruence.
Qed.
Lemma leap_confused : exists d d', chrono_nd d /\ chrono_nd d' /\ d <> d' /\ show_nd d = show_nd d'.
Proof.
  exists (mkND 2026 11 16 14 15 1 1000000000), (mkND 2026 11 16 14 15 2 0).
  assert (D : real_date 2026 11 16) by (exists 30; split; [constructor|lia]).
  repeat split; try (cbn; lia); try exact D; try discriminate.
Qed.
