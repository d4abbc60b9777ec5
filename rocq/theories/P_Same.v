(** Proofs: when two opened profiles compare equal. *)
From Verif Require Import M_Base M_Signature M_Header M_Context M_Debug M_Profile M_FileFile S_Bytes S_Header S_Profile S_Same
  P_Endian P_Profile P_Open P_Open2 P_Open3.
Local Open Scope Z_scope.

Lemma pad_inj {A} (d : A) l r : List.length l = List.length r -> pad d l = pad d r -> l = r.
Proof.
  unfold pad. intros L E. apply (f_equal (firstn (List.length l))) in E.
  rewrite firstn_app, Nat.sub_diag, firstn_all in E. rewrite L, firstn_app, Nat.sub_diag, firstn_all in E.
  cbn in E. now rewrite !app_nil_r in E.
Qed.
Lemma tags_inj (a b : list TagEntry) : map t_sig a = map t_sig b -> map t_offset a = map t_offset b ->
  map t_size a = map t_size b -> a = b.
Proof.
  revert b. induction a as [|x a IH]; intros [|y b] E1 E2 E3; try discriminate; [reflexivity|].
  cbn in E1, E2, E3. injection E1 as ? E1. injection E2 as ? E2. injection E3 as ? E3.
  f_equal; [|now apply IH]. destruct x, y; cbn in *; congruence.
Qed.
Lemma spec_date_inj a b : spec_date a = spec_date b -> a = b.
Proof. destruct a, b. unfold spec_date; cbn. now intros [= -> -> -> -> -> ->]. Qed.

Lemma spec_profiles_eq {H} (l1 l2 : bool) c1 c2 n1 n2 (i1 i2 : option H) :
  profile_eqb (spec_profile l1 c1 n1 i1) (spec_profile l2 c2 n2 i2) = true <->
  same_identity (decode_header l1 c1) (decode_header l2 c2) /\ accepted l1 c1 n1 = accepted l2 c2 n2.
Proof.
  rewrite profile_eqb_iff. split.
  - intros E.
    pose proof (f_equal p_created E) as E1. cbn [without_io spec_profile p_created] in E1. apply spec_date_inj in E1.
    pose proof (f_equal p_tag_names E) as E14. cbn [without_io spec_profile p_tag_names] in E14.
    pose proof (f_equal p_tag_sizes E) as E16. cbn [without_io spec_profile p_tag_sizes] in E16.
    pose proof (f_equal p_tag_offsets E) as E17. cbn [without_io spec_profile p_tag_offsets] in E17.
    pose proof (f_equal p_tag_count E) as E13. cbn [without_io spec_profile p_tag_count] in E13.
    split.
    + unfold same_identity.
      refine (conj (f_equal p_version E) (conj (f_equal p_device_class E) (conj (f_equal p_color_space E) (conj (f_equal p_pcs E)
        (conj E1 (conj (f_equal p_rendering_intent E) (conj (f_equal p_flags E) (conj (f_equal p_manufacturer E)
        (conj (f_equal p_model E) (conj (f_equal p_attributes E) (conj (f_equal p_creator E) (f_equal p_profile_id E)))))))))))).
    + apply pad_inj in E14; [|now rewrite !map_length]. apply pad_inj in E16; [|now rewrite !map_length].
      apply pad_inj in E17; [|now rewrite !map_length]. now apply tags_inj.
  - unfold without_io, spec_profile, same_identity. cbv zeta. generalize (decode_header l1 c1) (decode_header l2 c2). intros h1 h2.
    intros ((-> & -> & -> & -> & -> & -> & -> & -> & -> & -> & -> & ->) & ->). reflexivity.
Qed.

Lemma opened_equal e1 e2 w1 w2 now1 now2 sched1 sched2 ctx1 ctx2 fs1 fs2 q1 q2 d1 d2 p1 p2 :
  openable fs1 q1 d1 -> openable fs2 q2 d2 ->
  or_res (open_from_file_thr e1 w1 now1 sched1 ctx1 fs1 q1 ModeRead) = Ok p1 ->
  or_res (open_from_file_thr e2 w2 now2 sched2 ctx2 fs2 q2 ModeRead) = Ok p2 ->
  (profile_eqb p1 p2 = true <->
   same_identity (decode_header (feat_le e1) d1) (decode_header (feat_le e2) d2) /\ listed e1 d1 = listed e2 d2).
Proof.
  intros O1 O2 H1 H2.
  destruct (listed_fields _ _ _ _ _ _ _ _ _ O1 H1) as (_ & i1 & ->).
  destruct (listed_fields _ _ _ _ _ _ _ _ _ O2 H2) as (_ & i2 & ->).
  apply spec_profiles_eq.
Qed.

Lemma word_in_other_order l d : are_bytes d -> (40 <= List.length d)%nat ->
  word l d 36 4 = 1633907568 -> word (negb l) d 36 4 <> 1633907568.
Proof.
  intros B L H. unfold word in *. set (x := firstn 4 (skipn 36 d)) in *.
  assert (LX : List.length x = 4%nat) by (unfold x; rewrite firstn_length, skipn_length; lia).
  assert (BX : are_bytes x) by (exact (P_Header.slice_bytes 36 4 d B)). clearbody x.
  rewrite <- (wire_enc_value l x BX), LX, H. destruct l; vm_compute; discriminate.
Qed.

Lemma opened_magic e w now sched ctx fs q d p : openable fs q d -> or_res (open_from_file_thr e w now sched ctx fs q ModeRead) = Ok p ->
  (128 <= List.length d)%nat /\ h_magic (decode_header (feat_le e) d) = 1633907568.
Proof.
  intros O H. destruct (open_read_cases e w now sched ctx fs q d O) as (_ & [(v & J & R)|(E & _)]); [|congruence].
  inversion J; subst v; cbn [outcome_is] in R; try (destruct R as (R & _); congruence); try congruence.
  split; [|assumption]. destruct O as (_ & _ & B & _). pose proof (declared_nonneg (feat_le e) d B). lia.
Qed.
Lemma reopened_equal e1 e2 w1 w2 now1 now2 sched1 sched2 ctx1 ctx2 fs1 fs2 q1 q2 d p1 p2 :
  openable fs1 q1 d -> openable fs2 q2 d -> is64 e1 = is64 e2 \/ Z.of_nat (List.length d) < 2 ^ 32 ->
  or_res (open_from_file_thr e1 w1 now1 sched1 ctx1 fs1 q1 ModeRead) = Ok p1 ->
  or_res (open_from_file_thr e2 w2 now2 sched2 ctx2 fs2 q2 ModeRead) = Ok p2 ->
  profile_eqb p1 p2 = true.
Proof.
  intros O1 O2 W H1 H2.
  destruct (opened_magic _ _ _ _ _ _ _ _ _ O1 H1) as (L & M1). destruct (opened_magic _ _ _ _ _ _ _ _ _ O2 H2) as (_ & M2).
  assert (F : feat_le e1 = feat_le e2).
  { destruct (Bool.bool_dec (feat_le e1) (feat_le e2)) as [F|F]; [exact F|exfalso].
    replace (feat_le e2) with (negb (feat_le e1)) in M2 by (now destruct (feat_le e1), (feat_le e2)).
    destruct O1 as (_ & _ & B & _). apply (word_in_other_order (feat_le e1) d B); [lia|exact M1|exact M2]. }
  apply (opened_equal _ _ _ _ _ _ _ _ _ _ _ _ _ _ _ _ _ _ O1 O2 H1 H2).
  assert (U : Z.of_nat (List.length d) mod usize_lim e1 = Z.of_nat (List.length d) mod usize_lim e2).
  { unfold usize_lim, usize_bits. destruct W as [->|W]; [reflexivity|]. rewrite !Z.mod_small; try reflexivity; destruct (is64 _); lia. }
  unfold listed. rewrite F, U. split; [|reflexivity]. unfold same_identity. repeat split.
Qed.

Lemma profile_id_eq (p q : ProfileID) : list_eqb Z.eqb (id8 p) (id8 q) = true <-> p = q.
Proof. apply (list_eqb_iff Z.eqb Z.eqb_eq). Qed.
Lemma new_profile_id (e : env) (now : NaiveDateTime) (H : Type) :
  of_id16 e (repeat 0 8) = repeat 0 16 /\ p_profile_id (@profile_new H now) = of_id16 e (repeat 0 8).
Proof.
  assert (E : of_id16 e (repeat 0 8) = repeat 0 16) by (destruct e as [[] ? ? ? ?]; vm_compute; reflexivity).
  split; [exact E|]. now rewrite E.
Qed.
