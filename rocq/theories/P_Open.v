(** Opening a profile: consequences of [P_Profile.read_header_fresh] (C32-C42). *)
From Coq Require Import ZifyBool String.
From Verif Require Import M_Base M_Endian M_IO M_FileMem M_FileFile M_Signature M_SigTables M_Header M_Context M_Profile
  S_Bytes S_Header S_Profile P_Bytes P_Endian P_List P_FileMem P_FileFile P_Header P_Profile.
Local Open Scope list_scope.
Local Open Scope Z_scope.
#[local] Arguments off_max : simpl never.

(** A byte file that the process can open. *)
Lemma open_read_cases e w now sched ctx fs q d : openable fs q d ->
  let r := open_from_file_thr e w now sched ctx fs q ModeRead in
  (forall x, fs_content (or_fs r) x = fs_content fs x) /\
  ((exists v, judged (feat_le e) (ovf e) d v /\ outcome_is e w ctx d v r) \/
   (or_res r = Err OsError /\ or_events r = [] /\ or_ctx r = ctx /\ ~ no_fail sched)).
Proof.
  intros (HC & HR & HB & HL). unfold open_from_file_thr, fs_open. rewrite HC, HR.
  unfold finish_open.
  pose proof (read_header_fresh e w ctx now d sched HB HL) as F. unfold fresh_result in F.
  set (o := read_header_thr e w (file_io e) ctx (with_mode (profile_new now) (mkFile d 0 true false sched) false)) in *.
  clearbody o. destruct F as ((s' & F1 & F2) & F).
  cbv zeta. rewrite F1, F2. cbn [or_res or_ctx or_events or_fs]. split.
  - intros x. cbn. destruct (Nat.eqb_spec x q) as [->|_]; auto.
  - destruct F as [(v & J & F)|F].
    + left. exists v. split; [exact J|]. destruct v as [|k ev|]; cbn [outcome_is or_ctx or_events or_res].
      * destruct F as (A & B & C & sched' & D). rewrite C. split; [exact A|]. split; [exact B|]. exists sched'. now rewrite D.
      * destruct F as (A & B & C). rewrite A. auto.
      * destruct F as (A & B & C). rewrite A. auto.
    + right. destruct F as (A & B & C & D). rewrite A. auto.
Qed.

(** Every file has exactly one verdict. *)
Lemma wire_nonneg little l : are_bytes l -> 0 <= wire_value little l.
Proof.
  intros H. unfold wire_value. destruct little.
  - rewrite <- le_val_spec. apply (le_val_bound l H).
  - rewrite <- be_val_spec. apply (be_val_bound l H).
Qed.
Lemma declared_nonneg little d : are_bytes d -> 0 <= declared little d.
Proof. intros H. apply wire_nonneg. now apply are_bytes_part. Qed.

Lemma judged_fun little checks d v v' : are_bytes d -> judged little checks d v -> judged little checks d v' -> v = v'.
Proof.
  intros HB J J'. pose proof (declared_nonneg little d HB) as ND.
  assert (RI := readable_index little d). unfold zlen in RI.
  assert (K : forall i, (132 <= length d)%nat -> (i < readable_entries little d)%nat -> overflowing little d i = true ->
     (forall i, (i < Z.to_nat (declared little d))%nat -> overflowing little d i = false) -> False).
  { intros i HL Hi Ho Hn. apply RI in Hi; [|exact HL]. rewrite Hn in Ho; [discriminate|tauto]. }
  inversion J; subst; inversion J'; subst; try reflexivity; try (exfalso; lia); try contradiction; exfalso;
    repeat match goal with H : true = true -> _ |- _ => specialize (H eq_refl) end;
    try (eapply K; eassumption);
    match goal with H : forall i, (i < readable_entries _ _)%nat -> _ |- _ => rewrite H in * by eassumption; discriminate end.
Qed.

Lemma judged_total e d : are_bytes d -> zlen d <= off_max -> exists v, judged (feat_le e) (ovf e) d v.
Proof.
  intros HB HL.
  destruct (read_header_fresh e (mkWorld (fun _ c _ _ => c) (fun l => l)) (context_new None) (mkND 0 0 0 0 0 0 0) d [] HB HL)
    as (_ & [(v & J & _)|(_ & _ & _ & N)]); [eauto|]. exfalso. apply N. constructor.
Qed.

Lemma open_read_judged e w now sched ctx fs q d v : openable fs q d -> no_fail sched -> judged (feat_le e) (ovf e) d v ->
  outcome_is e w ctx d v (open_from_file_thr e w now sched ctx fs q ModeRead).
Proof.
  intros HO NF J. destruct (open_read_cases e w now sched ctx fs q d HO) as (_ & [(v' & J' & O)|(_ & _ & _ & N)]); [|contradiction].
  destruct HO as (_ & _ & HB & _). now rewrite (judged_fun _ _ _ _ _ HB J J').
Qed.

(** ** Success *)
Lemma open_ok_iff e w now sched ctx fs q d : openable fs q d -> no_fail sched ->
  ((exists p, or_res (open_from_file_thr e w now sched ctx fs q ModeRead) = Ok p) <-> judged (feat_le e) (ovf e) d Opens).
Proof.
  intros HO NF. split.
  - intros (p & Hp). destruct (open_read_cases e w now sched ctx fs q d HO) as (_ & [(v & J & O)|(N & _)]); [|congruence].
    destruct v; cbn [outcome_is] in O; [exact J| |]; destruct O as (O & _); congruence.
  - intros J. destruct (open_read_judged e w now sched ctx fs q d _ HO NF J) as (_ & _ & s & E). eauto.
Qed.

Lemma opened e w now sched ctx fs q d p : openable fs q d ->
  or_res (open_from_file_thr e w now sched ctx fs q ModeRead) = Ok p ->
  judged (feat_le e) (ovf e) d Opens /\
  exists sched', p = spec_profile (feat_le e) d (zlen d mod usize_lim e)
              (Some (mkFile d (132 + 12 * declared (feat_le e) d) true false sched')).
Proof.
  intros HO HP. destruct (open_read_cases e w now sched ctx fs q d HO) as (_ & [(v & J & O)|(N & _)]); [|congruence].
  destruct v; cbn [outcome_is] in O.
  - destruct O as (_ & _ & s & E). split; [exact J|]. exists s. unfold zlen. congruence.
  - destruct O as (O & _). congruence.
  - destruct O as (O & _). congruence.
Qed.

Lemma judged_opens_iff little checks d : judged little checks d Opens <->
  h_magic (decode_header little d) = 1633907568 /\ real_dt (h_date (decode_header little d)) /\ declared little d <= 100 /\
  (checks = true -> forall i, (i < Z.to_nat (declared little d))%nat -> overflowing little d i = false) /\
  132 + 12 * declared little d <= Z.of_nat (length d).
Proof.
  split; [intros J; inversion J; subst; auto|]. intros (A & B & C & D & E). now apply JOpens.
Qed.

Lemma entries_length little d : length (entries little d) = Z.to_nat (declared little d).
Proof. unfold entries. now rewrite map_length, seq_length. Qed.
Lemma filter_le {A} (f : A -> bool) l : (length (filter f l) <= length l)%nat.
Proof. induction l; [reflexivity|]. cbn. destruct (f a); cbn; lia. Qed.
Lemma accepted_length little d len : (length (accepted little d len) <= Z.to_nat (declared little d))%nat.
Proof. rewrite <- entries_length. apply filter_le. Qed.

(** ** Panics *)
Lemma judged_panics_iff little checks d : judged little checks d Panics <->
  ((128 <= length d)%nat /\ h_magic (decode_header little d) = 1633907568 /\
   (~ real_dt (h_date (decode_header little d)) \/
    (checks = true /\ real_dt (h_date (decode_header little d)) /\ (132 <= length d)%nat /\ declared little d <= 100 /\
     exists i, (i < readable_entries little d)%nat /\ overflowing little d i = true))).
Proof.
  split.
  - intros J. inversion J; subst.
    + repeat split; auto.
    + split; [lia|]. split; [assumption|]. right. do 4 (split; [first [assumption|reflexivity]|]). exists i. auto.
  - intros (A & B & [C|(C & D & E & F & i & G & H)]); [now apply JDate|]. now apply (JOverflow _ _ _ i).
Qed.
Lemma open_panics_iff e w now sched ctx fs q d : openable fs q d -> no_fail sched ->
  (or_res (open_from_file_thr e w now sched ctx fs q ModeRead) = Panic <-> judged (feat_le e) (ovf e) d Panics).
Proof.
  intros HO NF. split.
  - intros Hp. destruct (open_read_cases e w now sched ctx fs q d HO) as (_ & [(v & J & O)|(N & _)]); [|congruence].
    destruct v; cbn [outcome_is] in O; [destruct O as (_ & _ & s & O); congruence|destruct O as (O & _); congruence|exact J].
  - intros J. exact (proj1 (open_read_judged e w now sched ctx fs q d _ HO NF J)).
Qed.
Lemma open_panics_any e w now sched ctx fs q d : openable fs q d ->
  or_res (open_from_file_thr e w now sched ctx fs q ModeRead) = Panic -> judged (feat_le e) (ovf e) d Panics.
Proof.
  intros HO Hp. destruct (open_read_cases e w now sched ctx fs q d HO) as (_ & [(v & J & O)|(N & _)]); [|congruence].
  destruct v; cbn [outcome_is] in O; [destruct O as (_ & _ & s & O); congruence|destruct O as (O & _); congruence|exact J].
Qed.

(** ** Locality *)
Lemma firstn_more {A} n m (a b : list A) : (n <= m)%nat -> firstn m a = firstn m b -> firstn n a = firstn n b.
Proof.
  intros H E. rewrite <- (Nat.min_l n m H). rewrite <- !firstn_firstn. now rewrite E.
Qed.
Lemma word_agree little d d' m o n : (o + n <= m)%nat -> firstn m d = firstn m d' -> word little d o n = word little d' o n.
Proof.
  intros H E. pose proof (word_inner little d 0 m o n ltac:(lia)) as W. pose proof (word_inner little d' 0 m o n ltac:(lia)) as W'.
  cbn [skipn Nat.add] in W, W'. congruence.
Qed.
Lemma declared_agree little d d' : firstn 132 d = firstn 132 d' -> declared little d = declared little d'.
Proof. apply word_agree. lia. Qed.
Lemma header_agree little d d' : firstn 128 d = firstn 128 d' -> decode_header little d = decode_header little d'.
Proof. intros E. rewrite <- (decode_header_prefix little d), <- (decode_header_prefix little d'). now rewrite E. Qed.
Lemma entry_agree little d d' m i : (144 + 12 * i <= m)%nat -> firstn m d = firstn m d' -> entry little d i = entry little d' i.
Proof. intros H E. unfold entry. f_equal; apply (word_agree little d d' m); try assumption; lia. Qed.

Lemma dir_end_ge little d : are_bytes d -> (132 <= directory_end little d)%nat.
Proof. intros HB. pose proof (declared_nonneg little d HB). unfold directory_end. destruct (_ <=? 100); lia. Qed.

Section Agree.
  Context (little : bool) (d d' : list Z) (HB : are_bytes d) (L : length d = length d')
    (E : firstn (directory_end little d) d = firstn (directory_end little d) d').
  Lemma agree132 : firstn 132 d = firstn 132 d'.
  Proof. apply (firstn_more 132 (directory_end little d)); [now apply dir_end_ge|exact E]. Qed.
  Lemma agree_header : decode_header little d = decode_header little d'.
  Proof. apply header_agree. apply (firstn_more 128 132); [lia|apply agree132]. Qed.
  Lemma agree_declared : declared little d = declared little d'.
  Proof. apply declared_agree, agree132. Qed.
  Lemma agree_entry i : declared little d <= 100 -> (i < Z.to_nat (declared little d))%nat -> entry little d i = entry little d' i.
  Proof.
    intros H Hi. apply (entry_agree little d d' (directory_end little d)); [|exact E].
    unfold directory_end. replace (declared little d <=? 100) with true by lia. lia.
  Qed.
  Lemma agree_judged checks v : judged little checks d v -> judged little checks d' v.
  Proof.
    pose proof agree_header as AH. pose proof agree_declared as AD. pose proof agree_entry as AE.
    assert (RE : readable_entries little d = readable_entries little d') by (unfold readable_entries; now rewrite AD, L).
    assert (RR : forall i, (i < readable_entries little d)%nat -> (i < Z.to_nat (declared little d))%nat).
    { intros i. unfold readable_entries. lia. }
    intros J. inversion J; subst; rewrite ?AH, ?AD, ?L in *.
    - now apply JShort.
    - now apply JMagic.
    - now apply JDate.
    - now apply JNoCount.
    - now apply JTooMany.
    - apply (JOverflow _ _ _ i); auto; [now rewrite <- RE|]. unfold overflowing in *. rewrite <- AE; auto.
    - apply JCutShort; auto. intros X i Hi. rewrite <- RE in Hi. unfold overflowing. rewrite <- AE; auto. apply H3; auto.
    - apply JOpens; auto. intros X i Hi. unfold overflowing. rewrite <- AE; auto. apply H2; auto.
  Qed.
  Lemma agree_profile {H} len (io : option H) : declared little d <= 100 -> spec_profile little d len io = spec_profile little d' len io.
  Proof.
    intros HD. unfold spec_profile. rewrite agree_header.
    replace (accepted little d' len) with (accepted little d len); [reflexivity|].
    unfold accepted.
    assert (EE : entries little d = entries little d').
    { unfold entries. rewrite <- agree_declared. apply map_ext_in. intros i Hi. apply in_seq in Hi. apply agree_entry; lia. }
    rewrite EE. unfold in_file, limit.
    replace (word little d' 0 4) with (word little d 0 4); [reflexivity|].
    apply (word_agree little d d' 132); [lia|apply agree132].
  Qed.
End Agree.
