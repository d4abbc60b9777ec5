(** Opening a profile from an arbitrary source (C66). *)
From Coq Require Import ZifyBool String.
From Verif Require Import M_Base M_Endian M_IO M_FileMem M_FileFile M_Signature M_SigTables M_Header M_Context M_Profile
  S_Bytes S_Header S_Profile S_Source P_Bytes P_Endian P_List P_FileMem P_FileFile P_Header P_Profile.
Local Open Scope list_scope.
Local Open Scope Z_scope.
Notation length := List.length.

Lemma talk_app {S} (h : IOHandler S) s l s1 l' s2 : talk h s l s1 -> talk h s1 l' s2 -> talk h s (l ++ l') s2.
Proof. induction 1; intros; cbn [app]; [assumption|econstructor; eauto..]. Qed.

Lemma read_array_talk {S} (h : IOHandler S) n s : exists s',
  talk h s [XRead n (fst (read_array h n s))] s' /\ snd (read_array h n s) = s'.
Proof.
  unfold read_array. destruct (io_read h s (repeat 0 n)) as [[[[]|k|] s'] b] eqn:E; exists s'; cbn; (split; [|reflexivity]).
  - eapply TalkRead; [exact E|constructor].
  - eapply TalkReadErr; [exact E|constructor].
  - eapply TalkReadPanic; [exact E|constructor].
Qed.

Lemma read_array_typed {S} e (h : IOHandler S) n s b s' : well_typed e h -> read_array h n s = (Ok b, s') -> length b = n /\ are_bytes b.
Proof.
  intros (W & _) H. unfold read_array in H. destruct (io_read h s (repeat 0 n)) as [[[[]|k|] s1] b1] eqn:E; try discriminate.
  injection H as -> ->. exact (W _ _ _ _ E).
Qed.

Definition got (b : list Z) : exchange := XRead 12 (Ok b).
Definition twelve (b : list Z) : Prop := length b = 12%nat /\ are_bytes b.

Lemma decode_tag_u32 little b : twelve b -> 0 <= t_offset (decode_tag little b) < 4294967296 /\ 0 <= t_size (decode_tag little b) < 4294967296.
Proof. intros (L & B). split; apply u32_word; try assumption; lia. Qed.

Lemma read_tags_any {S} e (h : IOHandler S) hs : well_typed e h -> 0 <= hs < 4294967296 ->
  forall n acc s, (length acc + n <= 100)%nat ->
  exists r s' t es tail, read_tags e h hs n (table_of acc) s = (r, s', t) /\
    talk h s (map got es ++ tail) s' /\ Forall twelve es /\
    t = table_of (acc ++ filter (fun t => last_byte t <=? hs) (map (decode_tag (feat_le e)) es)) /\
    ( (r = Ok tt /\ tail = [] /\ length es = n /\
       (ovf e = true -> Forall (fun b => last_byte (decode_tag (feat_le e) b) < 4294967296) es))
    \/ (r = Panic /\ tail = [] /\ (length es <= n)%nat /\ ovf e = true /\
        exists es0 b, es = es0 ++ [b] /\ 4294967296 <= last_byte (decode_tag (feat_le e) b))
    \/ (exists k, r = Err k /\ tail = [XRead 12 (Err k)] /\ (length es < n)%nat)
    \/ (r = Panic /\ tail = [XRead 12 Panic] /\ (length es < n)%nat) ).
Proof.
  intros WT Hhs. set (little := feat_le e). induction n as [|n IH]; intros acc s L.
  - exists (Ok tt), s, (table_of acc), [], []. cbn. rewrite app_nil_r.
    split; [reflexivity|]. split; [constructor|]. split; [constructor|]. split; [reflexivity|].
    left. repeat split. intros _. constructor.
  - cbn [read_tags]. destruct (read_array_talk h 12 s) as (s1 & T & E1).
    destruct (read_array h 12 s) as [[b|k|] s1'] eqn:E; cbn [fst snd] in T, E1; subst s1'.
    2:{ exists (Err k), s1, (table_of acc), [], [XRead 12 (Err k)]. cbn. rewrite app_nil_r.
        split; [reflexivity|]. split; [exact T|]. split; [constructor|]. split; [reflexivity|].
        right. right. left. exists k. repeat split. lia. }
    2:{ exists Panic, s1, (table_of acc), [], [XRead 12 Panic]. cbn. rewrite app_nil_r.
        split; [reflexivity|]. split; [exact T|]. split; [constructor|]. split; [reflexivity|].
        right. right. right. repeat split. lia. }
    assert (TW : twelve b) by exact (read_array_typed e h 12 s b s1 WT E).
    destruct TW as (LB & BB). rewrite tag_decodes by assumption. fold little.
    destruct (decode_tag_u32 little b (conj LB BB)) as (U1 & U2).
    rewrite rejected_spec by assumption.
    destruct (ovf e && (4294967296 <=? last_byte (decode_tag little b))) eqn:OV.
    { apply andb_true_iff in OV as (OV1 & OV2).
      exists Panic, s1, (table_of acc), [b], []. split; [reflexivity|]. split; [exact T|].
      split; [constructor; [split; assumption|constructor]|]. split.
      - cbn [map filter]. replace (last_byte (decode_tag little b) <=? hs) with false by lia. now rewrite app_nil_r.
      - right. left. split; [reflexivity|]. split; [reflexivity|]. split; [cbn; lia|]. split; [exact OV1|].
        exists [], b. split; [reflexivity|lia]. }
    set (acc' := acc ++ (if last_byte (decode_tag little b) <=? hs then [decode_tag little b] else [])).
    assert (L' : (length acc' + n <= 100)%nat).
    { unfold acc'. rewrite app_length. destruct (last_byte (decode_tag little b) <=? hs); cbn [length]; lia. }
    destruct (IH acc' s1 L') as (r & s' & t & es & tail & R & TT & TW & ET & C).
    exists r, s', t, (b :: es), tail. split; [|split; [|split; [|split]]].
    + unfold acc' in R. destruct (last_byte (decode_tag little b) <=? hs); cbn [negb].
      * rewrite add_tag_table by lia. exact R.
      * rewrite app_nil_r in R. exact R.
    + cbn [map app]. exact (talk_app h s _ s1 _ s' T TT).
    + constructor; [split; assumption|exact TW].
    + rewrite ET. unfold acc'. cbn [map filter]. f_equal. rewrite <- app_assoc. f_equal.
      destruct (last_byte (decode_tag little b) <=? hs); reflexivity.
    + assert (OVB : ovf e = true -> last_byte (decode_tag little b) < 4294967296) by (intros X; rewrite X in OV; cbn in OV; lia).
      destruct C as [(C1 & C2 & C3 & C4)|[(C1 & C2 & C3 & C4 & es0 & b' & C5 & C6)|[(k & C1 & C2 & C3)|(C1 & C2 & C3)]]].
      * left. repeat split; try assumption; [cbn; lia|]. intros X. constructor; auto.
      * right. left. repeat split; try assumption; [cbn; lia|]. exists (b :: es0), b'. split; [now rewrite C5|exact C6].
      * right. right. left. exists k. repeat split; try assumption. cbn. lia.
      * right. right. right. repeat split; try assumption. cbn. lia.
Qed.

Lemma reported_size_talk {S} e (h : IOHandler S) s : well_typed e h -> exists r s' l, reported_size h s = (r, s') /\ talk h s l s' /\
  (exists pos rest, [AskTell; AskSeek (SeekEnd 0); AskTell; AskSeek (SeekStart pos)] = map asked l ++ rest /\
     forall p, nth_error l 0 = Some (XTell (Ok p)) -> pos = p) /\
  match r with
  | Ok len => 0 <= len < usize_lim e /\
      exists pos, l = [XTell (Ok pos); XSeek (SeekEnd 0) (Ok tt); XTell (Ok len); XSeek (SeekStart pos) (Ok tt)]
  | Err k => Exists (failed_with k) l
  | Panic => Exists panicked l
  end.
Proof.
  intros (_ & W). unfold reported_size, bind.
  assert (X : forall (r : res Z) p, nth_error [XTell r] 0 = Some (XTell (Ok p)) -> r = Ok p) by (intros r p H; now injection H).
  destruct (io_tell h s) as [[pos|k|] s1] eqn:E1.
  2:{ exists (Err k), s1, [XTell (Err k)]. split; [reflexivity|]. split; [eapply TalkTell; [exact E1|constructor]|]. split.
      - exists 0, [AskSeek (SeekEnd 0); AskTell; AskSeek (SeekStart 0)]. split; [reflexivity|]. intros p H. apply X in H. discriminate.
      - constructor. reflexivity. }
  2:{ exists Panic, s1, [XTell Panic]. split; [reflexivity|]. split; [eapply TalkTell; [exact E1|constructor]|]. split.
      - exists 0, [AskSeek (SeekEnd 0); AskTell; AskSeek (SeekStart 0)]. split; [reflexivity|]. intros p H. apply X in H. discriminate.
      - constructor. reflexivity. }
  assert (Y : forall l p, nth_error (XTell (Ok pos) :: l) 0 = Some (XTell (Ok p)) -> pos = p) by (intros l p H; now injection H).
  destruct (io_seek h s1 (SeekEnd 0)) as [[[]|k|] s2] eqn:E2.
  2:{ exists (Err k), s2, [XTell (Ok pos); XSeek (SeekEnd 0) (Err k)]. split; [reflexivity|].
      split; [eapply TalkTell; [exact E1|eapply TalkSeek; [exact E2|constructor]]|]. split.
      - exists pos, [AskTell; AskSeek (SeekStart pos)]. split; [reflexivity|]. apply Y.
      - apply Exists_cons_tl. constructor. reflexivity. }
  2:{ exists Panic, s2, [XTell (Ok pos); XSeek (SeekEnd 0) Panic]. split; [reflexivity|].
      split; [eapply TalkTell; [exact E1|eapply TalkSeek; [exact E2|constructor]]|]. split.
      - exists pos, [AskTell; AskSeek (SeekStart pos)]. split; [reflexivity|]. apply Y.
      - apply Exists_cons_tl. constructor. reflexivity. }
  destruct (io_tell h s2) as [x s3] eqn:E3.
  assert (T3 : forall l s', talk h s3 l s' -> talk h s (XTell (Ok pos) :: XSeek (SeekEnd 0) (Ok tt) :: XTell x :: l) s').
  { intros l s' T. eapply TalkTell; [exact E1|eapply TalkSeek; [exact E2|eapply TalkTell; [exact E3|exact T]]]. }
  destruct x as [len|k|].
  3:{ exists Panic, s3, [XTell (Ok pos); XSeek (SeekEnd 0) (Ok tt); XTell Panic]. split; [reflexivity|].
      split; [apply T3; constructor|]. split; [exists pos, [AskSeek (SeekStart pos)]; split; [reflexivity|apply Y]|].
      do 2 apply Exists_cons_tl. constructor. reflexivity. }
  - destruct (io_seek h s3 (SeekStart pos)) as [y s4] eqn:E4.
    assert (T4 : talk h s [XTell (Ok pos); XSeek (SeekEnd 0) (Ok tt); XTell (Ok len); XSeek (SeekStart pos) y] s4).
    { apply T3. eapply TalkSeek; [exact E4|constructor]. }
    destruct y as [[]|k|].
    + exists (Ok len), s4, [XTell (Ok pos); XSeek (SeekEnd 0) (Ok tt); XTell (Ok len); XSeek (SeekStart pos) (Ok tt)].
      split; [reflexivity|]. split; [exact T4|]. split; [exists pos, []; split; [reflexivity|apply Y]|].
      split; [exact (W _ _ _ E3)|]. exists pos. reflexivity.
    + eexists (Err k), s4, _. split; [reflexivity|]. split; [exact T4|]. split; [exists pos, []; split; [reflexivity|apply Y]|].
      do 3 apply Exists_cons_tl. constructor. reflexivity.
    + eexists Panic, s4, _. split; [reflexivity|]. split; [exact T4|]. split; [exists pos, []; split; [reflexivity|apply Y]|].
      do 3 apply Exists_cons_tl. constructor. reflexivity.
  - destruct (io_seek h s3 (SeekStart pos)) as [y s4] eqn:E4.
    assert (T4 : talk h s [XTell (Ok pos); XSeek (SeekEnd 0) (Ok tt); XTell (Err k); XSeek (SeekStart pos) y] s4).
    { apply T3. eapply TalkSeek; [exact E4|constructor]. }
    destruct y as [[]|k'|].
    + eexists (Err k), s4, _. split; [reflexivity|]. split; [exact T4|]. split; [exists pos, []; split; [reflexivity|apply Y]|].
      do 2 apply Exists_cons_tl. constructor. reflexivity.
    + eexists (Err k'), s4, _. split; [reflexivity|]. split; [exact T4|]. split; [exists pos, []; split; [reflexivity|apply Y]|].
      do 3 apply Exists_cons_tl. constructor. reflexivity.
    + eexists Panic, s4, _. split; [reflexivity|]. split; [exact T4|]. split; [exists pos, []; split; [reflexivity|apply Y]|].
      do 3 apply Exists_cons_tl. constructor. reflexivity.
Qed.

(** ** Words of delivered bytes *)
Lemma delivered_app l l' : delivered (l ++ l') = delivered l ++ delivered l'.
Proof. unfold delivered. apply flat_map_app. Qed.
Lemma delivered_got es : delivered (map got es) = concat es.
Proof. induction es as [|b es IH]; [reflexivity|]. cbn. now rewrite <- IH. Qed.
Lemma firstn_exact {A} n (a b : list A) : length a = n -> firstn n (a ++ b) = a.
Proof. intros <-. rewrite firstn_app, Nat.sub_diag. cbn. now rewrite firstn_all, app_nil_r. Qed.
Lemma header_of_app little b r : length b = 128%nat -> decode_header little (b ++ r) = decode_header little b.
Proof. intros L. rewrite <- (decode_header_prefix little (b ++ r)). now rewrite firstn_exact. Qed.
Lemma word_at little a b o n : length a = o -> word little (a ++ b) o n = word little b 0 n.
Proof. intros <-. unfold word. rewrite skipn_app, Nat.sub_diag, skipn_all. reflexivity. Qed.
Lemma word_prefix little b r n : length b = n -> word little (b ++ r) 0 n = word little b 0 n.
Proof. intros L. unfold word. cbn [skipn]. rewrite firstn_exact by exact L. now rewrite <- L, firstn_all. Qed.

Lemma concat_nth es : Forall twelve es -> forall i b, nth_error es i = Some b -> forall r, firstn 12 (skipn (12 * i) (concat es ++ r)) = b.
Proof.
  induction 1 as [|x es (LX & _) F IH]; intros i b N r; [destruct i; discriminate|].
  cbn [concat]. rewrite <- app_assoc. destruct i as [|i].
  - injection N as ->. rewrite Nat.mul_0_r. cbn [skipn]. now apply firstn_exact.
  - replace (12 * S i)%nat with (12 + 12 * i)%nat by lia. rewrite skipn_sum, (skipn_app 12 x), <- LX, Nat.sub_diag, skipn_all.
    cbn [app skipn]. rewrite LX. exact (IH i b N r).
Qed.

Lemma entry_at little b c es i x : length b = 128%nat -> length c = 4%nat -> Forall twelve es -> nth_error es i = Some x ->
  entry little (b ++ c ++ concat es) i = decode_tag little x.
Proof.
  intros LB LC F N. rewrite <- entry_decode. f_equal.
  rewrite app_assoc. replace (132 + 12 * i)%nat with (length (b ++ c) + 12 * i)%nat by (rewrite app_length; lia).
  rewrite skipn_sum, skipn_app, Nat.sub_diag, skipn_all. cbn [app skipn].
  rewrite <- (app_nil_r (concat es)). now apply concat_nth.
Qed.

Lemma nth_error_same {A} (a : list A) : forall b, (forall i, nth_error a i = nth_error b i) -> a = b.
Proof.
  induction a as [|x a IH]; intros [|y b] H; [reflexivity|specialize (H O); discriminate..|].
  pose proof (H O) as H0. injection H0 as ->. f_equal. apply IH. intros i. exact (H (S i)).
Qed.

Lemma map_entries little d es n : length es = n -> (forall i x, nth_error es i = Some x -> entry little d i = decode_tag little x) ->
  map (entry little d) (seq 0 n) = map (decode_tag little) es.
Proof.
  intros <- H. apply nth_error_same. intros i. rewrite !nth_error_map.
  destruct (nth_error es i) as [x|] eqn:E.
  - assert (i < length es)%nat by (apply nth_error_Some; congruence).
    rewrite nth_error_nth' with (d := 0%nat) by (rewrite seq_length; lia). rewrite seq_nth by lia. cbn. now rewrite (H i x E).
  - apply nth_error_None in E. replace (nth_error (seq 0 (length es)) i) with (@None nat); [reflexivity|].
    symmetry. apply nth_error_None. now rewrite seq_length.
Qed.
Lemma asked_got es : map asked (map got es) = repeat (AskRead 12) (length es).
Proof. induction es; cbn; [reflexivity|]. now rewrite IHes. Qed.
Lemma answered_got es : Forall answered (map got es).
Proof. induction es; cbn; constructor; [eexists; reflexivity|assumption]. Qed.

Lemma assembled_any {S} now (f : S) hd dd s4 a :
  with_tags (with_io (set_created_id (set_header_fields (with_mode (profile_new now) f false) hd) dd (h_profile_id hd)) s4) (table_of a) =
  mkProfile (Some s4) dd (h_version hd) (h_device_class hd) (h_color_space hd) (h_pcs hd) (h_rendering_intent hd) (h_flags hd)
    (h_manufacturer hd) (h_model hd) (h_attributes hd) (h_creator hd) (h_profile_id hd)
    (length a) (pad 538976288 (map t_sig a)) (pad None (links a)) (pad 0 (map t_size a)) (pad 0 (map t_offset a)) (repeat false 100) false.
Proof. reflexivity. Qed.

Lemma any_source {S} e w (h : IOHandler S) c now s : well_typed e h ->
  let o := read_header_thr e w h c (with_mode (profile_new now) s false) in
  exists l s', talk h s l s' /\ p_io (o_profile o) = Some s' /\ follows_script l /\ justified e w c l s' o.
Proof.
  intros WT. unfold read_header_thr. cbn [with_mode p_io with_io]. cbv zeta.
  set (little := feat_le e).
  destruct (read_array_talk h 128 s) as (s1 & T1 & E1).
  destruct (read_array h 128 s) as [[b|k|] s1'] eqn:E; cbn [fst snd] in T1, E1; subst s1'.
  2:{ exists [XRead 128 (Err k)], s1. split; [exact T1|]. split; [reflexivity|]. split.
      - exists 0, O, (tl (script 0 0)). split; [lia|]. split; [reflexivity|]. intros p H; discriminate.
      - cbn. left. repeat split. constructor. reflexivity. }
  2:{ exists [XRead 128 Panic], s1. split; [exact T1|]. split; [reflexivity|]. split.
      - exists 0, O, (tl (script 0 0)). split; [lia|]. split; [reflexivity|]. intros p H; discriminate.
      - cbn. repeat split. left. constructor. reflexivity. }
  destruct (read_array_typed e h 128 s b s1 WT E) as (LB & BB).
  rewrite from_bytes_decodes by assumption. fold little. set (hd := decode_header little b).
  assert (WF : header_wf hd) by now apply decode_wf.
  rewrite magic_value. unfold sig_eqb.
  destruct (h_magic hd =? 1633907568) eqn:EM; cbn [negb].
  2:{ unfold signal_error. cbn [o_profile p_io with_io]. exists [XRead 128 (Ok b)], s1. split; [exact T1|]. split; [reflexivity|]. split.
      - exists 0, O, (tl (script 0 0)). split; [lia|]. split; [reflexivity|]. intros p H; discriminate.
      - right. left. split; [reflexivity|]. split; [constructor; [eexists; reflexivity|constructor]|]. split; [reflexivity|].
        cbn [delivered flat_map]. rewrite app_nil_r. fold little hd. split; [lia|]. split; reflexivity. }
  apply Z.eqb_eq in EM.
  destruct (reported_size_talk e h s1 WT) as (r & s2 & l2 & R2 & T2 & (pos & rest & SC & PO) & C2). rewrite R2.
  assert (T12 : talk h s (XRead 128 (Ok b) :: l2) s2) by exact (talk_app h s _ s1 l2 s2 T1 T2).
  assert (FS : follows_script (XRead 128 (Ok b) :: l2)).
  { exists pos, O, (rest ++ [AskRead 4]). split; [lia|]. split; [|intros p H; apply PO; exact H].
    unfold script. cbn [map app asked repeat]. f_equal.
    change [AskTell; AskSeek (SeekEnd 0); AskTell; AskSeek (SeekStart pos); AskRead 4] with
      ([AskTell; AskSeek (SeekEnd 0); AskTell; AskSeek (SeekStart pos)] ++ [AskRead 4]).
    rewrite SC, <- app_assoc. reflexivity. }
  destruct r as [len|k|].
  2:{ eexists _, s2. split; [exact T12|]. split; [reflexivity|]. split; [exact FS|]. left. repeat split. now apply Exists_cons_tl. }
  2:{ eexists _, s2. split; [exact T12|]. split; [reflexivity|]. split; [exact FS|]. repeat split. left. now apply Exists_cons_tl. }
  destruct C2 as (LEN & pos' & ->). clear SC PO rest pos. rename pos' into pos.
  set (h5 := [XRead 128 (Ok b); XTell (Ok pos); XSeek (SeekEnd 0) (Ok tt); XTell (Ok len); XSeek (SeekStart pos) (Ok tt)]) in *.
  assert (A5 : Forall answered h5) by (repeat constructor; eexists; reflexivity).
  assert (D5 : forall l, delivered (h5 ++ l) = b ++ delivered l) by (intros l; reflexivity).
  assert (SZ : 0 <= h_size hd < 4294967296) by (apply u32_word; [exact BB|lia]).
  rewrite u32_as_usize by exact SZ. rewrite limit_min.
  assert (DW : date_wf (h_date hd)) by apply WF.
  destruct (real_dt_dec _ DW) as [RD|RD].
  2:{ rewrite to_naive_none by assumption. exists h5, s2. split; [exact T12|]. split; [reflexivity|]. split; [exact FS|].
      split; [reflexivity|]. split; [reflexivity|]. right. left. split; [exact A5|]. split; [reflexivity|].
      change (delivered h5) with (b ++ []). rewrite app_nil_r. exact RD. }
  rewrite to_naive_some by assumption. unfold read_directory, read_u32.
  destruct (read_array_talk h 4 s2) as (s3 & T3 & E3).
  destruct (read_array h 4 s2) as [[cb|k|] s3'] eqn:E4; cbn [fst snd] in T3, E3; subst s3'; cbn [bind].
  2:{ exists (h5 ++ [XRead 4 (Err k)]), s3. split; [exact (talk_app h s _ s2 _ s3 T12 T3)|]. split; [reflexivity|]. split.
      - exists pos, O, []. split; [lia|]. split; [reflexivity|]. intros p H. now injection H.
      - left. repeat split. apply Exists_app. right. constructor. reflexivity. }
  2:{ exists (h5 ++ [XRead 4 Panic]), s3. split; [exact (talk_app h s _ s2 _ s3 T12 T3)|]. split; [reflexivity|]. split.
      - exists pos, O, []. split; [lia|]. split; [reflexivity|]. intros p H. now injection H.
      - repeat split. left. apply Exists_app. right. constructor. reflexivity. }
  destruct (read_array_typed e h 4 s2 cb s3 WT E4) as (LC & BC).
  pose proof (adjust_at e cb 0 4 BC ltac:(lia)) as AD. unfold ne_at, slice in AD. cbn [skipn] in AD.
  rewrite <- LC in AD at 2. rewrite firstn_all in AD. rewrite AD. clear AD. fold little.
  assert (DEC : forall r, declared little (b ++ cb ++ r) = word little cb 0 4).
  { intros r. unfold declared. rewrite word_at by exact LB. now apply word_prefix. }
  assert (ND : 0 <= word little cb 0 4 < 4294967296) by (apply u32_word; [exact BC|lia]).
  set (N := word little cb 0 4) in *.
  assert (T6 := talk_app h s _ s2 _ s3 T12 T3).
  change (Z.of_nat MAX_TABLE_TAG) with 100.
  destruct (100 <? N) eqn:ET.
  { unfold signal_error. cbn [o_profile p_io with_io]. exists (h5 ++ [XRead 4 (Ok cb)]), s3. split; [exact T6|]. split; [reflexivity|]. split.
    - exists pos, O, []. split; [lia|]. split; [reflexivity|]. intros p H. now injection H.
    - right. right. split; [reflexivity|]. split; [apply Forall_app; split; [exact A5|constructor; [eexists; reflexivity|constructor]]|].
      split; [reflexivity|]. rewrite D5. cbn [delivered flat_map]. fold little. rewrite DEC. split; [lia|]. split; reflexivity. }
  assert (LIM : 0 <= Z.min (h_size hd) len < 4294967296) by lia.
  destruct (read_tags_any e h (Z.min (h_size hd) len) WT LIM (Z.to_nat N) [] s3 ltac:(cbn; lia))
    as (r & s4 & t & es & tail & RT & TT & TW & ETB & C).
  change (tags_of _) with (table_of []).
  match goal with |- context [read_tags ?a ?b ?c ?n ?x ?y] =>
    change (read_tags a b c n x y) with (read_tags e h (Z.min (h_size hd) len) (Z.to_nat N) (table_of []) s3) end.
  rewrite RT. cbn [o_res o_profile o_ctx o_events with_tags with_io p_io].
  set (l := (h5 ++ [XRead 4 (Ok cb)]) ++ map got es ++ tail).
  assert (TL : talk h s l s4) by exact (talk_app h s _ s3 _ s4 T6 TT).
  assert (DL : delivered l = b ++ cb ++ concat es ++ delivered tail).
  { unfold l. rewrite <- app_assoc, D5. f_equal. cbn [app]. cbn [delivered flat_map]. f_equal.
    change (flat_map _ (map got es ++ tail)) with (delivered (map got es ++ tail)). now rewrite delivered_app, delivered_got. }
  assert (A6 : Forall answered ((h5 ++ [XRead 4 (Ok cb)]) ++ map got es)).
  { apply Forall_app. split; [apply Forall_app; split; [exact A5|constructor; [eexists; reflexivity|constructor]]|apply answered_got]. }
  assert (FL : (exists k, tail = repeat (XRead 12 Panic) k \/ exists x, tail = repeat (XRead 12 (Err x)) k) -> (length es + length tail <= Z.to_nat N)%nat -> follows_script l).
  { intros (k & TL') HL. exists pos, (length es + length tail)%nat, []. split; [lia|]. split.
    - unfold l, script. rewrite app_nil_r, !map_app, asked_got, repeat_app. cbn [map asked h5 app]. repeat f_equal.
      destruct TL' as [->|(x & ->)]; clear; rewrite repeat_length; induction k as [|k IH]; cbn; congruence.
    - intros p H. now injection H. }
  exists l, s4. split; [exact TL|]. split; [reflexivity|].
  destruct C as [(C1 & C2 & C3 & C4)|[(C1 & C2 & C3 & C4 & es0 & x & C5 & C6)|[(k & C1 & C2 & C3)|(C1 & C2 & C3)]]].
  - split; [apply FL; [exists O; left; rewrite C2; reflexivity|rewrite C2; cbn; lia]|].
    unfold justified. cbn [o_res o_profile o_ctx o_events]. fold little. rewrite C1.
    subst tail. rewrite app_nil_r in DL. rewrite DL, DEC, header_of_app by exact LB. fold hd.
    assert (EN : forall i x, nth_error es i = Some x -> entry little (b ++ cb ++ concat es) i = decode_tag little x).
    { intros i x. now apply entry_at. }
    split; [reflexivity|]. split; [reflexivity|]. split; [unfold l; rewrite app_nil_r; exact A6|]. split; [|split; [exact EM|split; [exact RD|split; [lia|]]]].
    + exists pos, len. split; [|split; [reflexivity|]].
      * unfold l. rewrite app_nil_r, !map_app, asked_got, C3. reflexivity.
      * rewrite ETB. rewrite assembled_any. unfold spec_profile, accepted, entries.
        rewrite header_of_app by exact LB. fold hd. rewrite DEC.
        rewrite (map_entries little _ es (Z.to_nat N) C3 EN). cbn [app].
        assert (FE : filter (in_file little (b ++ cb ++ concat es) len) (map (decode_tag little) es) =
                     filter (fun t0 => last_byte t0 <=? Z.min (h_size hd) len) (map (decode_tag little) es)).
        { apply filter_ext. intros a. unfold in_file, limit. f_equal. f_equal.
          change (h_size hd) with (word little b 0 4).
          unfold word. cbn [skipn]. rewrite firstn_app. replace (4 - length b)%nat with O by lia. cbn. now rewrite app_nil_r. }
        rewrite FE. reflexivity.
    + intros X i Hi. destruct (nth_error es i) as [x|] eqn:NE; [|apply nth_error_None in NE; lia].
      unfold overflowing. rewrite (EN i x NE). specialize (C4 X). rewrite Forall_forall in C4.
      specialize (C4 x (nth_error_In _ _ NE)). lia.
  - split; [apply FL; [exists O; left; rewrite C2; reflexivity|rewrite C2; cbn; lia]|].
    unfold justified. cbn [o_res o_profile o_ctx o_events]. fold little. rewrite C1.
    subst tail. rewrite app_nil_r in DL.
    split; [reflexivity|]. split; [reflexivity|]. right. right. split; [unfold l; rewrite app_nil_r; exact A6|]. split; [exact C4|].
    assert (LL : length l = (6 + length es)%nat) by (unfold l; rewrite app_nil_r, !app_length, map_length; reflexivity).
    assert (LE : length es = Datatypes.S (length es0)) by (rewrite C5, app_length; cbn; lia).
    rewrite LL. split; [lia|]. rewrite DL. replace (6 + length es - 7)%nat with (length es0) by lia.
    unfold overflowing. rewrite (entry_at little b cb es (length es0) x LB LC TW) by (rewrite C5; apply nth_error_mid).
    apply Z.leb_le. exact C6.
  - split; [apply FL; [exists 1%nat; right; exists k; rewrite C2; reflexivity|rewrite C2; cbn; lia]|].
    unfold justified. cbn [o_res o_profile o_ctx o_events]. rewrite C1. left. repeat split.
    unfold l. rewrite C2. apply Exists_app. right. apply Exists_app. right. constructor. reflexivity.
  - split; [apply FL; [exists 1%nat; left; rewrite C2; reflexivity|rewrite C2; cbn; lia]|].
    unfold justified. cbn [o_res o_profile o_ctx o_events]. rewrite C1. repeat split. left.
    unfold l. rewrite C2. apply Exists_app. right. apply Exists_app. right. constructor. reflexivity.
Qed.

(** ** Consequences *)
Lemma script_length l : follows_script l -> (length l <= 106)%nat.
Proof.
  intros (pos & n & rest & L & E & _). apply (f_equal (@length request)) in E.
  unfold script in E. rewrite !app_length, repeat_length, map_length in E. cbn in E. lia.
Qed.

Lemma read_tags_write {S} e (r : S -> list Z -> res unit * S * list Z) k t w1 w2 hs n : forall tb s,
  read_tags e (mkIO r k t w1) hs n tb s = read_tags e (mkIO r k t w2) hs n tb s.
Proof.
  induction n as [|n IH]; intros tb s; [reflexivity|]. cbn [read_tags].
  change (read_array (mkIO r k t w2) 12 s) with (read_array (mkIO r k t w1) 12 s).
  destruct (read_array _ 12 s) as [[b|x|] s1]; try reflexivity.
  destruct (tag_rejected _ _ _) as [[|]|]; try reflexivity; [apply IH|].
  destruct (add_tag _ _); [apply IH|reflexivity].
Qed.

Lemma never_writes {S} e w (r : S -> list Z -> res unit * S * list Z) k t w1 w2 c p :
  read_header_thr e w (mkIO r k t w1) c p = read_header_thr e w (mkIO r k t w2) c p.
Proof.
  unfold read_header_thr. destruct (p_io p) as [s|]; [|reflexivity].
  change (read_array (mkIO r k t w2) 128 s) with (read_array (mkIO r k t w1) 128 s).
  destruct (read_array _ 128 s) as [[b|x|] s1]; try reflexivity.
  destruct (negb _); [reflexivity|].
  change (reported_size (mkIO r k t w2) s1) with (reported_size (mkIO r k t w1) s1).
  destruct (reported_size _ s1) as [[len|x|] s2]; try reflexivity.
  destruct (dt_to_naive _); [|reflexivity].
  unfold read_directory.
  change (read_u32 e (mkIO r k t w2) s2) with (read_u32 e (mkIO r k t w1) s2).
  destruct (read_u32 _ _ s2) as [[m|x|] s3]; try reflexivity.
  destruct (_ <? m); [reflexivity|]. rewrite (read_tags_write e r k t w1 w2). reflexivity.
Qed.

Lemma any_source_tags {S} e w (h : IOHandler S) c now s p : well_typed e h ->
  let o := read_header_thr e w h c (with_mode (profile_new now) s false) in
  o_res o = Ok tt -> o_profile o = p ->
  exists l s' len, talk h s l s' /\ nth_error l 3 = Some (XTell (Ok len)) /\
    (p_tag_count p <= 100)%nat /\ List.length (p_tag_names p) = 100%nat /\ List.length (p_tag_offsets p) = 100%nat /\
    List.length (p_tag_sizes p) = 100%nat /\ List.length (p_tag_linked p) = 100%nat /\
    forall i, (i < p_tag_count p)%nat ->
      nth i (p_tag_offsets p) 0 + nth i (p_tag_sizes p) 0 <= Z.min (word (feat_le e) (delivered l) 0 4) len.
Proof.
  intros WT o OK <-. destruct (any_source e w h c now s WT) as (l & s' & T & _ & FS & J).
  fold o in J. unfold justified in J. rewrite OK in J. destruct J as (_ & _ & _ & (pos & len & _ & N3 & E) & _ & _ & D & _).
  exists l, s', len. split; [exact T|]. split; [exact N3|]. rewrite E. cbn [spec_profile p_tag_count p_tag_names p_tag_offsets p_tag_sizes p_tag_linked].
  set (a := accepted (feat_le e) (delivered l) len).
  assert (LA : (length a <= 100)%nat).
  { unfold a, accepted. etransitivity; [|apply (Nat.le_trans _ (Z.to_nat (declared (feat_le e) (delivered l))))]; [| |lia].
    - apply Nat.le_refl.
    - unfold entries. generalize (Z.to_nat (declared (feat_le e) (delivered l))). intros n.
      rewrite <- (seq_length n 0) at 2. rewrite <- (map_length (entry (feat_le e) (delivered l)) (seq 0 n)).
      generalize (map (entry (feat_le e) (delivered l)) (seq 0 n)). clear. intros x. induction x as [|y x IH]; [apply Nat.le_refl|].
      cbn [filter]. destruct (in_file _ _ _ y); cbn [length]; lia. }
  assert (PL : forall A (d : A) x, length x = length a -> length (pad d x) = 100%nat).
  { intros A d x HX. unfold pad. rewrite app_length, repeat_length. lia. }
  split; [exact LA|]. do 3 (split; [apply PL; apply map_length|]). split; [apply PL; apply links_length|].
  intros i Hi. assert (PN : forall f, nth i (pad 0 (map f a)) 0 = match nth_error a i with Some t => f t | None => 0 end).
  { intros f. unfold pad. rewrite app_nth1 by (rewrite map_length; exact Hi).
    destruct (nth_error a i) as [t|] eqn:NE; [|apply nth_error_None in NE; lia].
    apply nth_error_nth. rewrite nth_error_map, NE. reflexivity. }
  rewrite !PN. destruct (nth_error a i) as [t|] eqn:NE; [|apply nth_error_None in NE; lia].
  apply nth_error_In in NE. unfold a, accepted in NE. apply filter_In in NE as (_ & NE). unfold in_file, limit, last_byte in NE. lia.
Qed.
