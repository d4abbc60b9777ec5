(** Proofs: opening a file that has not arrived completely yet (C105). *)
From Coq Require Import ZifyBool.
From Verif Require Import M_Base M_Signature M_Header M_Context M_Profile M_FileFile S_Bytes S_Header S_Profile S_Same S_Conditions S_Grow
  P_Endian P_Profile P_Open P_Open2 P_Open3 P_Same.
Local Open Scope list_scope.
Local Open Scope Z_scope.

Lemma filter_twice {A} (f g : A -> bool) l : filter g (filter f l) = filter (fun t => f t && g t) l.
Proof. induction l as [|t r IH]; [reflexivity|]. cbn [filter]. destruct (f t); cbn [filter andb]; [destruct (g t); now rewrite IH|exact IH]. Qed.
Section Grow.
  Context (little : bool) (d x : list Z) (B : are_bytes d).
  Lemma g_first m : (m <= List.length d)%nat -> firstn m d = firstn m (d ++ x).
  Proof. intros L. rewrite firstn_app. replace (m - List.length d)%nat with 0%nat by lia. cbn [firstn]. now rewrite app_nil_r. Qed.
  Lemma g_header : (128 <= List.length d)%nat -> decode_header little (d ++ x) = decode_header little d.
  Proof. intros L. symmetry. apply header_agree. now apply g_first. Qed.
  Lemma g_declared : (132 <= List.length d)%nat -> declared little (d ++ x) = declared little d.
  Proof. intros L. symmetry. apply declared_agree. now apply g_first. Qed.
  Lemma g_entry i : (144 + 12 * i <= List.length d)%nat -> entry little (d ++ x) i = entry little d i.
  Proof. intros L. symmetry. apply (entry_agree _ _ _ (144 + 12 * i)); [lia|now apply g_first]. Qed.
  Lemma g_readable i : (i < readable_entries little d)%nat -> (144 + 12 * i <= List.length d)%nat /\ (132 <= List.length d)%nat /\ (i < Z.to_nat (declared little d))%nat.
  Proof.
    unfold readable_entries. intros I. pose proof (Nat.mul_div_le (List.length d - 132) 12 ltac:(lia)).
    assert ((i < (List.length d - 132) / 12)%nat) by lia. lia.
  Qed.
  Lemma g_readable_more i : (i < readable_entries little d)%nat -> (i < readable_entries little (d ++ x))%nat.
  Proof.
    intros I. destruct (g_readable i I) as (L & L2 & D). unfold readable_entries. rewrite g_declared by exact L2.
    assert ((S i <= (List.length (d ++ x) - 132) / 12)%nat); [|lia].
    apply Nat.div_le_lower_bound; [lia|]. rewrite app_length. lia.
  Qed.
  Lemma g_final checks v : judged little checks d v -> v <> Fails UnexpectedEof [] -> judged little checks (d ++ x) v.
  Proof.
    intros J N. pose proof (app_length d x) as L. inversion J; subst; try congruence.
    - apply JMagic; [lia|now rewrite g_header by lia].
    - apply JDate; [lia|now rewrite g_header by lia|now rewrite g_header by lia].
    - rewrite <- g_declared by lia. apply JTooMany; rewrite ?g_header, ?g_declared by lia; try assumption; lia.
    - destruct (g_readable i) as (L1 & L2 & L3); [assumption|].
      apply (JOverflow _ _ _ i); rewrite ?g_header, ?g_declared by lia; try assumption; try lia; [now apply g_readable_more|].
      unfold overflowing. now rewrite g_entry by lia.
    - pose proof (declared_nonneg little d B).
      apply JOpens; rewrite ?g_header, ?g_declared by lia; try assumption; try lia.
      intros C i I. unfold overflowing. rewrite g_entry by lia. exact (H2 C i I).
  Qed.
  Lemma g_cut checks (B' : are_bytes (d ++ x)) : judged little checks (d ++ x) Opens ->
    judged little checks d (if 132 + 12 * declared little (d ++ x) <=? Z.of_nat (List.length d) then Opens else Fails UnexpectedEof []).
  Proof.
    intros J. apply judged_opens_iff in J. destruct J as (M & R & D & V & L).
    destruct (Nat.lt_ge_cases (List.length d) 128) as [S|S].
    - pose proof (declared_nonneg little d B). replace (_ <=? _) with false; [now apply JShort|]. symmetry. apply Z.leb_gt.
      assert (0 <= declared little (d ++ x)); [|lia].
      apply declared_nonneg. exact B'.
    - rewrite g_header in M, R by exact S.
      destruct (Nat.lt_ge_cases (List.length d) 132) as [S'|S'].
      + replace (_ <=? _) with false; [apply JNoCount; auto|]. symmetry. apply Z.leb_gt. assert (0 <= declared little (d ++ x)); [|lia].
        apply declared_nonneg. exact B'.
      + rewrite g_declared in * by exact S'. destruct (132 + 12 * declared little d <=? Z.of_nat (List.length d)) eqn:E.
        * apply JOpens; auto; [|lia]. intros C i I. specialize (V C i I). unfold overflowing in *. now rewrite g_entry in V by lia.
        * apply JCutShort; auto; [|lia]. intros C i I. destruct (g_readable i I) as (L1 & L2 & L3). specialize (V C i L3). unfold overflowing in *. now rewrite g_entry in V by lia.
  Qed.
  Lemma g_entries : declared little d <= 100 -> 132 + 12 * declared little d <= Z.of_nat (List.length d) -> entries little (d ++ x) = entries little d.
  Proof.
    intros D L. pose proof (declared_nonneg little d B). unfold entries. rewrite g_declared by lia. apply map_ext_in. intros i I. apply in_seq in I. apply g_entry. lia.
  Qed.
  Lemma g_accepted : declared little d <= 100 -> 132 + 12 * declared little d <= Z.of_nat (List.length d) ->
    accepted little d (Z.of_nat (List.length d)) =
    filter (fun t => last_byte t <=? Z.of_nat (List.length d)) (accepted little (d ++ x) (Z.of_nat (List.length (d ++ x)))).
  Proof.
    intros D L. pose proof (declared_nonneg little d B). unfold accepted. rewrite g_entries by assumption.
    assert (W : word little (d ++ x) 0 4 = word little d 0 4) by (symmetry; apply (word_agree little _ _ 4); [lia|apply g_first; lia]).
    rewrite filter_twice. apply filter_ext. intros t. unfold in_file, limit. rewrite W, app_length. lia.
  Qed.
End Grow.

Lemma grown e w now now' sched sched' ctx fs fs' q q' d x :
  openable fs q d -> openable fs' q' (d ++ x) -> no_fail sched -> no_fail sched' ->
  let r := open_from_file_thr e w now sched ctx fs q ModeRead in
  let r' := open_from_file_thr e w now' sched' ctx fs' q' ModeRead in
  or_res r <> Err UnexpectedEof ->
  or_events r' = or_events r /\ or_ctx r' = or_ctx r /\
  match or_res r, or_res r' with
  | Ok p, Ok p' => header_part p' = header_part p
  | Err k, Err k' => k' = k
  | Panic, Panic => True
  | _, _ => False
  end.
Proof.
  intros O O' NF NF' r r' N. pose proof O as (_ & _ & B & BL).
  destruct (judged_total e d B BL) as (v & J).
  pose proof (open_read_judged e w now sched ctx fs q d v O NF J) as R. fold r in R.
  assert (NV : v <> Fails UnexpectedEof []) by (intros ->; cbn [outcome_is] in R; now destruct R).
  pose proof (open_read_judged e w now' sched' ctx fs' q' (d ++ x) v O' NF' (g_final _ _ x B _ _ J NV)) as R'. fold r' in R'.
  destruct v; cbn [outcome_is] in R, R'.
  - destruct R as (R1 & R2 & s & R3), R' as (R1' & R2' & s' & R3'). rewrite R1, R1', R2, R2', R3, R3'. repeat split.
    apply judged_opens_iff in J. destruct J as (_ & _ & JD & _ & JL). pose proof (declared_nonneg (feat_le e) d B).
    unfold header_part. cbn [spec_profile p_created p_version p_device_class p_color_space p_pcs p_rendering_intent p_flags p_manufacturer
      p_model p_attributes p_creator p_profile_id]. rewrite g_header by lia. reflexivity.
  - destruct R as (R1 & R2 & R3), R' as (R1' & R2' & R3'). rewrite R1, R1', R2, R2', R3, R3'. auto.
  - destruct R as (R1 & R2 & R3), R' as (R1' & R2' & R3'). rewrite R1, R1', R2, R2', R3, R3'. auto.
Qed.
Lemma grown_tags e w now sched ctx fs q d x p : openable fs q d -> or_res (open_from_file_thr e w now sched ctx fs q ModeRead) = Ok p ->
  Z.of_nat (List.length (d ++ x)) < usize_lim e ->
  listed e d = filter (fun t => last_byte t <=? Z.of_nat (List.length d)) (listed e (d ++ x)) /\
  (word (feat_le e) d 0 4 <= Z.of_nat (List.length d) -> listed e (d ++ x) = listed e d).
Proof.
  intros O H U. pose proof O as (_ & _ & B & BL).
  destruct (open_read_cases e w now sched ctx fs q d O) as (_ & [(v & J & R)|(E & _)]); [|congruence].
  assert (v = Opens) as -> by (destruct v; [reflexivity|destruct R; congruence|destruct R; congruence]).
  apply judged_opens_iff in J. destruct J as (_ & _ & JD & _ & JL).
  assert (UD : Z.of_nat (List.length d) < usize_lim e) by (rewrite app_length in U; lia).
  unfold listed. rewrite !Z.mod_small by lia.
  assert (G : accepted (feat_le e) d (Z.of_nat (List.length d)) =
    filter (fun t => last_byte t <=? Z.of_nat (List.length d)) (accepted (feat_le e) (d ++ x) (Z.of_nat (List.length (d ++ x))))) by (apply g_accepted; assumption).
  split; [exact G|]. intros S. rewrite G. symmetry.
  pose proof (declared_nonneg (feat_le e) d B).
  assert (W : word (feat_le e) (d ++ x) 0 4 = word (feat_le e) d 0 4) by (symmetry; apply (word_agree (feat_le e) _ _ 4); [lia|apply g_first; lia]).
  unfold accepted. rewrite filter_twice. apply filter_ext. intros t. unfold in_file, limit. rewrite W. lia.
Qed.
Lemma cut e w now sched ctx fs fs' q q' d m now' sched' p : openable fs q d -> openable fs' q' (firstn m d) -> no_fail sched' ->
  or_res (open_from_file_thr e w now sched ctx fs q ModeRead) = Ok p ->
  let r' := open_from_file_thr e w now' sched' ctx fs' q' ModeRead in
  (132 + 12 * declared (feat_le e) d <= Z.of_nat m -> exists p', or_res r' = Ok p') /\
  (Z.of_nat m < 132 + 12 * declared (feat_le e) d -> or_res r' = Err UnexpectedEof /\ or_events r' = [] /\ or_ctx r' = ctx).
Proof.
  intros O O' NF H r'. pose proof O as (_ & _ & B & BL). pose proof O' as (_ & _ & B' & BL').
  destruct (open_read_cases e w now sched ctx fs q d O) as (_ & [(v & J & R)|(E & _)]); [|congruence].
  assert (v = Opens) as -> by (destruct v; [reflexivity|destruct R; congruence|destruct R; congruence]). clear R.
  pose proof (g_cut (feat_le e) (firstn m d) (skipn m d) B' (ovf e)) as C. rewrite firstn_skipn in C. specialize (C B J).
  pose proof (open_read_judged e w now' sched' ctx fs' q' _ _ O' NF C) as R. fold r' in R. clear C.
  apply judged_opens_iff in J. destruct J as (_ & _ & _ & _ & JL). rewrite firstn_length in R.
  destruct (132 + 12 * declared (feat_le e) d <=? Z.of_nat (Nat.min m (List.length d))) eqn:E; cbn [outcome_is] in R; split; intros L; try lia.
  - destruct R as (_ & _ & s & R). eauto.
  - exact R.
Qed.
