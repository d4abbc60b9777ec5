(** Proofs: which bytes of a profile file decide what opening it gives (C104). *)
From Verif Require Import M_Base M_Signature M_Header M_Context M_Profile M_FileFile S_Bytes S_Header S_Profile S_Same S_Counts S_Conditions
  P_Endian P_Profile P_Open P_Open2 P_Open3 P_Same.
Local Open Scope Z_scope.

Lemma slice_nth (d : list Z) o n k : (k < n)%nat -> nth k (firstn n (skipn o d)) 0 = nth (o + k) d 0.
Proof.
  revert d n k. induction o as [|o IH]; intros d n k H.
  - cbn [skipn Nat.add]. revert d k H. induction n as [|n IHn]; intros d k H; [lia|]. destruct d as [|x d]; [now destruct k|].
    destruct k as [|k]; [reflexivity|]. cbn [firstn nth]. apply IHn. lia.
  - destruct d as [|x d].
    + cbn [skipn]. rewrite firstn_nil. now destruct k.
    + cbn [skipn Nat.add nth]. now apply IH.
Qed.
Lemma slice_ext d d' o n : List.length d = List.length d' -> (forall p, (o <= p < o + n)%nat -> nth p d 0 = nth p d' 0) ->
  firstn n (skipn o d) = firstn n (skipn o d').
Proof.
  intros L A. apply (nth_ext _ _ 0 0); [now rewrite !firstn_length, !skipn_length, L|].
  intros k H. rewrite firstn_length in H. rewrite !slice_nth by lia. apply A. lia.
Qed.
Lemma slice_agree d d' o n : firstn n (skipn o d) = firstn n (skipn o d') -> forall p, (o <= p < o + n)%nat -> nth p d 0 = nth p d' 0.
Proof.
  intros E p H. replace p with (o + (p - o))%nat by lia. rewrite <- (slice_nth d o n), <- (slice_nth d' o n) by lia. now rewrite E.
Qed.
Lemma word_ext little d d' o n : List.length d = List.length d' -> (forall p, (o <= p < o + n)%nat -> nth p d 0 = nth p d' 0) ->
  word little d o n = word little d' o n.
Proof. intros L A. unfold word. now rewrite (slice_ext d d' o n L A). Qed.
Lemma word_bytes little d d' o n : are_bytes d -> are_bytes d' -> (o + n <= List.length d)%nat -> (o + n <= List.length d')%nat ->
  word little d o n = word little d' o n -> forall p, (o <= p < o + n)%nat -> nth p d 0 = nth p d' 0.
Proof.
  intros B B' L L' W. apply slice_agree. unfold word in W.
  rewrite <- (wire_enc_value little (firstn n (skipn o d))), <- (wire_enc_value little (firstn n (skipn o d'))) by (now apply are_bytes_part).
  now rewrite !part_length, W by lia.
Qed.

Section Agree.
  Context (little : bool) (d d' : list Z) (HB : are_bytes d) (L : List.length d = List.length d')
    (E : agree_on (fun p => (p < directory_end little d)%nat /\ ~ ignored p) d d').
  Ltac inside := let p := fresh in let H := fresh in intros p H; apply E; pose proof (dir_end_ge little d HB); unfold ignored; lia.
  Lemma c_word o n : (forall p, (o <= p < o + n)%nat -> ~ ignored p) -> (o + n <= 132)%nat -> word little d o n = word little d' o n.
  Proof. intros I H. apply word_ext; [exact L|]. intros p P. apply E. split; [|now apply I]. pose proof (dir_end_ge little d HB). lia. Qed.
  Ltac w := apply c_word; [unfold ignored; lia|lia].
  Lemma c_magic : h_magic (decode_header little d) = h_magic (decode_header little d').
  Proof. cbn [decode_header h_magic]. w. Qed.
  Lemma c_date : h_date (decode_header little d) = h_date (decode_header little d').
  Proof. cbn [decode_header h_date]. f_equal; w. Qed.
  Lemma c_declared : declared little d = declared little d'.
  Proof. unfold declared. w. Qed.
  Lemma c_size : word little d 0 4 = word little d' 0 4.
  Proof. w. Qed.
  Lemma c_identity : same_identity (decode_header little d) (decode_header little d').
  Proof.
    unfold same_identity. rewrite c_date. cbn [decode_header h_version h_device_class h_color_space h_pcs h_rendering_intent h_flags
      h_manufacturer h_model h_attributes h_creator h_profile_id].
    repeat apply conj; try reflexivity; try w.
    apply slice_ext; [exact L|]. intros p P. apply E. pose proof (dir_end_ge little d HB). unfold ignored. lia.
  Qed.
  Lemma c_entry i : declared little d <= 100 -> (i < Z.to_nat (declared little d))%nat -> entry little d i = entry little d' i.
  Proof.
    intros H Hi. unfold entry. f_equal; (apply word_ext; [exact L|]; intros p P; apply E; unfold directory_end, ignored;
      replace (declared little d <=? 100) with true by lia; lia).
  Qed.
  Lemma c_judged checks v : judged little checks d v -> judged little checks d' v.
  Proof.
    pose proof c_magic as AM. pose proof c_date as AT. pose proof c_declared as AD. pose proof c_entry as AE.
    assert (RE : readable_entries little d = readable_entries little d') by (unfold readable_entries; now rewrite AD, L).
    assert (RR : forall i, (i < readable_entries little d)%nat -> (i < Z.to_nat (declared little d))%nat).
    { intros i. unfold readable_entries. lia. }
    intros J. inversion J; subst; rewrite ?AM, ?AT, ?AD, ?L in *.
    - now apply JShort.
    - now apply JMagic.
    - now apply JDate.
    - now apply JNoCount.
    - now apply JTooMany.
    - apply (JOverflow _ _ _ i); auto; [now rewrite <- RE|]. unfold overflowing in *. rewrite <- AE; auto.
    - apply JCutShort; auto. intros X i Hi. rewrite <- RE in Hi. unfold overflowing. rewrite <- AE; auto. apply H3; auto.
    - apply JOpens; auto. intros X i Hi. unfold overflowing. rewrite <- AE; auto. apply H2; auto.
  Qed.
  Lemma c_accepted len : declared little d <= 100 -> accepted little d len = accepted little d' len.
  Proof.
    intros HD. unfold accepted.
    assert (EE : entries little d = entries little d').
    { unfold entries. rewrite <- c_declared. apply map_ext_in. intros i Hi. apply in_seq in Hi. apply c_entry; lia. }
    rewrite EE. unfold in_file, limit. now rewrite c_size.
  Qed.
End Agree.

Lemma ignored_bytes e w now now' sched sched' ctx fs fs' q q' d d' :
  openable fs q d -> openable fs' q' d' -> no_fail sched -> no_fail sched' -> List.length d = List.length d' ->
  agree_on (fun p => (p < directory_end (feat_le e) d)%nat /\ ~ ignored p) d d' ->
  same_outcome (open_from_file_thr e w now sched ctx fs q ModeRead) (open_from_file_thr e w now' sched' ctx fs' q' ModeRead).
Proof.
  intros HO HO' NF NF' L E. pose proof HO as (_ & _ & HB & HL).
  destruct (judged_total e d HB HL) as (v & J).
  pose proof (open_read_judged e w now sched ctx fs q d v HO NF J) as O.
  pose proof (c_judged (feat_le e) d d' HB L E (ovf e) v J) as J'.
  pose proof (open_read_judged e w now' sched' ctx fs' q' d' v HO' NF' J') as O'.
  unfold same_outcome. destruct v; cbn [outcome_is] in O, O'.
  - destruct O as (O1 & O2 & s & O3), O' as (O1' & O2' & s' & O3'). rewrite O1, O1', O2, O2', O3, O3'.
    repeat split. rewrite <- L. apply profile_eqb_iff, spec_profiles_eq. split.
    + now apply c_identity.
    + apply c_accepted; try assumption. apply judged_opens_iff in J. tauto.
  - destruct O as (O1 & O2 & O3), O' as (O1' & O2' & O3'). rewrite O1, O1', O2, O2', O3, O3'. auto.
  - destruct O as (O1 & O2 & O3), O' as (O1' & O2' & O3'). rewrite O1, O1', O2, O2', O3, O3'. auto.
Qed.

Lemma identity_bytes little d d' : are_bytes d -> are_bytes d' -> (128 <= List.length d)%nat -> (128 <= List.length d')%nat ->
  (same_identity (decode_header little d) (decode_header little d') <-> agree_on kept d d').
Proof.
  intros B B' L L'. 
  assert (W : forall o n, (o + n <= 128)%nat -> (word little d o n = word little d' o n <-> forall p, (o <= p < o + n)%nat -> nth p d 0 = nth p d' 0)).
  { intros o n H. split; [apply word_bytes; try assumption; lia|]. intros A. unfold word. f_equal.
    apply (nth_ext _ _ 0 0); [now rewrite !part_length by lia|]. intros k K. rewrite part_length in K by lia. rewrite !slice_nth by lia. apply A. lia. }
  assert (S : forall o n, (o + n <= 128)%nat -> (firstn n (skipn o d) = firstn n (skipn o d') <-> forall p, (o <= p < o + n)%nat -> nth p d 0 = nth p d' 0)).
  { intros o n H. split; [apply slice_agree|]. intros A.
    apply (nth_ext _ _ 0 0); [now rewrite !part_length by lia|]. intros k K. rewrite part_length in K by lia. rewrite !slice_nth by lia. apply A. lia. }
  unfold same_identity. cbn [decode_header h_version h_device_class h_color_space h_pcs h_rendering_intent h_flags
      h_manufacturer h_model h_attributes h_creator h_profile_id h_date].
  rewrite !W, S by lia. split.
  - intros (A1 & A2 & A3 & A4 & D & A5 & A6 & A7 & A8 & A9 & A10 & A11) p K.
    injection D as D1 D2 D3 D4 D5 D6. rewrite W in D1, D2, D3, D4, D5, D6 by lia. unfold kept in K.
    assert (C : (8 <= p < 12 \/ 12 <= p < 16 \/ 16 <= p < 20 \/ 20 <= p < 24 \/ 24 <= p < 26 \/ 26 <= p < 28 \/ 28 <= p < 30 \/ 30 <= p < 32 \/
      32 <= p < 34 \/ 34 <= p < 36 \/ 44 <= p < 48 \/ 48 <= p < 52 \/ 52 <= p < 56 \/ 56 <= p < 64 \/ 64 <= p < 68 \/ 80 <= p < 84 \/ 84 <= p < 100)%nat) by lia.
    repeat (destruct C as [C|C]; [auto|]). auto.
  - intros A. repeat apply conj; try (intros p P; apply A; unfold kept; lia).
    f_equal; apply W; try lia; intros p P; apply A; unfold kept; lia.
Qed.
Lemma equal_bytes e1 e2 w1 w2 now1 now2 sched1 sched2 ctx1 ctx2 fs1 fs2 q1 q2 d1 d2 p1 p2 :
  openable fs1 q1 d1 -> openable fs2 q2 d2 -> feat_le e1 = feat_le e2 ->
  or_res (open_from_file_thr e1 w1 now1 sched1 ctx1 fs1 q1 ModeRead) = Ok p1 ->
  or_res (open_from_file_thr e2 w2 now2 sched2 ctx2 fs2 q2 ModeRead) = Ok p2 ->
  (profile_eqb p1 p2 = true <-> agree_on kept d1 d2 /\ listed e1 d1 = listed e2 d2).
Proof.
  intros O1 O2 F H1 H2.
  destruct (opened_magic _ _ _ _ _ _ _ _ _ O1 H1) as (L1 & _). destruct (opened_magic _ _ _ _ _ _ _ _ _ O2 H2) as (L2 & _).
  rewrite (opened_equal _ _ _ _ _ _ _ _ _ _ _ _ _ _ _ _ _ _ O1 O2 H1 H2), F.
  destruct O1 as (_ & _ & B1 & _), O2 as (_ & _ & B2 & _). now rewrite identity_bytes.
Qed.
Lemma magic_bytes e w now sched ctx fs q d p : openable fs q d ->
  or_res (open_from_file_thr e w now sched ctx fs q ModeRead) = Ok p ->
  firstn 4 (skipn 36 d) = if feat_le e then [112; 115; 99; 97] else [97; 99; 115; 112].
Proof.
  intros O H. destruct (opened_magic _ _ _ _ _ _ _ _ _ O H) as (L & M). destruct O as (_ & _ & B & _).
  cbn [decode_header h_magic] in M. unfold word in M.
  rewrite <- (wire_enc_value (feat_le e) (firstn 4 (skipn 36 d))) by (now apply are_bytes_part).
  rewrite part_length, M by lia. destruct (feat_le e); vm_compute; reflexivity.
Qed.
Lemma filter_mid {A} (f : A -> bool) a x y b : f x = true -> filter f (a ++ x :: b) = filter f (a ++ y :: b) -> x = y.
Proof.
  intros X E. rewrite !filter_app in E. apply app_inv_head in E. cbn [filter] in E. rewrite X in E.
  destruct (f y); [now injection E|]. apply (f_equal (@List.length A)) in E. cbn in E. lia.
Qed.
Lemma entry_counts e w now1 now2 sched1 sched2 ctx fs1 fs2 q1 q2 d1 d2 p1 p2 i :
  openable fs1 q1 d1 -> openable fs2 q2 d2 -> List.length d1 = List.length d2 ->
  or_res (open_from_file_thr e w now1 sched1 ctx fs1 q1 ModeRead) = Ok p1 ->
  or_res (open_from_file_thr e w now2 sched2 ctx fs2 q2 ModeRead) = Ok p2 ->
  (i < Z.to_nat (declared (feat_le e) d1))%nat -> In (entry (feat_le e) d1 i) (listed e d1) ->
  agree_on (fun p => ~ (132 + 12 * i <= p < 144 + 12 * i)%nat) d1 d2 -> profile_eqb p1 p2 = true -> d1 = d2.
Proof.
  intros O1 O2 L H1 H2 I IN A EQ. set (l := feat_le e) in *.
  apply (opened_equal _ _ _ _ _ _ _ _ _ _ _ _ _ _ _ _ _ _ O1 O2 H1 H2) in EQ. destruct EQ as (_ & EQ).
  assert (ROOM : (144 + 12 * i <= List.length d1)%nat).
  { destruct (open_read_cases e w now1 sched1 ctx fs1 q1 d1 O1) as (_ & [(v & J & R)|(E & _)]); [|congruence].
    inversion J; subst v; cbn [outcome_is] in R; try (destruct R as (R & _); congruence); try congruence. unfold l in I. lia. }
  destruct O1 as (_ & _ & B1 & _), O2 as (_ & _ & B2 & _).
  assert (W : forall o n, (o + n <= 132 + 12 * i \/ 144 + 12 * i <= o)%nat -> word l d1 o n = word l d2 o n).
  { intros o n H. apply word_ext; [exact L|]. intros p P. apply A. lia. }
  assert (D : declared l d1 = declared l d2) by (apply W; lia).
  unfold listed, accepted in *. fold l in EQ, IN. rewrite <- L in EQ. set (len := _ mod _) in *.
  assert (F : forall t, in_file l d2 len t = in_file l d1 len t) by (intros t; unfold in_file, limit; now rewrite (W 0%nat 4%nat) by lia).
  rewrite (filter_ext _ _ F) in EQ. apply filter_In in IN. destruct IN as (_ & X).
  assert (SP : seq 0 (Z.to_nat (declared l d1)) = seq 0 i ++ i :: seq (S i) (Z.to_nat (declared l d1) - S i)).
  { replace (Z.to_nat (declared l d1)) with (i + S (Z.to_nat (declared l d1) - S i))%nat at 1 by lia. now rewrite seq_app. }
  assert (OTHER : forall a n, (a + n <= i \/ i < a)%nat -> map (entry l d2) (seq a n) = map (entry l d1) (seq a n)).
  { intros a n H. apply map_ext_in. intros j J. apply in_seq in J. unfold entry. f_equal; symmetry; apply W; lia. }
  unfold entries in EQ. rewrite <- D, SP, !map_app in EQ. cbn [map] in EQ. rewrite !OTHER in EQ by lia.
  apply filter_mid in EQ; [|exact X].
  assert (E1 := f_equal t_sig EQ). assert (E2 := f_equal t_offset EQ). assert (E3 := f_equal t_size EQ). cbn [entry t_sig t_offset t_size] in E1, E2, E3.
  apply (nth_ext _ _ 0 0); [exact L|]. intros p _.
  destruct (le_lt_dec (132 + 12 * i) p) as [G|G]; [|apply A; lia]. destruct (le_lt_dec (144 + 12 * i) p) as [G'|G']; [apply A; lia|].
  assert (C : (132 + 12 * i <= p < 132 + 12 * i + 4 \/ 136 + 12 * i <= p < 136 + 12 * i + 4 \/ 140 + 12 * i <= p < 140 + 12 * i + 4)%nat) by lia.
  destruct C as [C|[C|C]].
  - apply (word_bytes l d1 d2 _ _ B1 B2) with (4 := C); try assumption; lia.
  - apply (word_bytes l d1 d2 _ _ B1 B2) with (4 := C); try assumption; lia.
  - apply (word_bytes l d1 d2 _ _ B1 B2) with (4 := C); try assumption; lia.
Qed.
