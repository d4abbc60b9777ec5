(** Proofs: opening a profile as a conversation (C112). *)
From Coq Require Import ZifyBool String.
From Verif Require Import M_Base M_Endian M_IO M_FileMem M_FileFile M_FileNull M_Signature M_SigTables M_Header M_Context M_Profile
  S_Bytes S_Header S_Profile S_Talk S_Opening S_Conditions P_Bytes P_Endian P_List P_FileMem P_FileFile P_Header P_Profile P_Source P_Talk.
Local Open Scope list_scope.
Local Open Scope Z_scope.

Lemma calls_more {A} (t : talk A) : forall n m, (n <= m)%nat -> calls_only_reads n t -> calls_only_reads m t.
Proof.
  induction t as [P|k t IH|b t IH|p t IH|t IH|P a IHa b IHb]; intros n m L H; cbn [calls_only_reads] in *; auto; try tauto.
  1-3: destruct n as [|n]; [contradiction|]; destruct m as [|m]; [lia|]; intros x; apply (IH x n m); [lia|apply H].
  split; [apply (IHa n m)|apply (IHb n m)]; tauto.
Qed.
Section Calls.
  Context {S : Type} (little checks : bool) (w : world) (c : Context).
  Lemma next_calls {B} n (k : B -> talk (outcome S)) a : (forall b, calls_only_reads n (k b)) -> calls_only_reads n (next c k a).
  Proof. intros H. destruct a; cbn; [apply H|exact I|exact I]. Qed.
  Lemma directory_calls n : forall m d len, (n <= m)%nat -> calls_only_reads m (directory (S := S) little checks c n d len).
  Proof.
    induction n as [|n IH]; intros m d len L; [exact I|]. destruct m as [|m]; [lia|]. intros a. apply next_calls. intros b.
    destruct (_ && _); [exact I|]. apply IH. lia.
  Qed.
  Lemma opening_calls : calls_only_reads 106 (opening (S := S) little checks w c).
  Proof.
    intros a. apply next_calls. intros hd. split; [|exact I]. intros p. apply next_calls. intros pos q. apply next_calls. intros _ len.
    assert (K : calls_only_reads 101 (next c (fun len0 => Either (real_dt (h_date (decode_header little hd)))
            (Reads 4 (next c (fun n =>
              if 100 <? wire_value little n then complains (S := S) w c EC_Range (text "Too many tags " ++ decimal (wire_value little n))
              else directory little checks c (Z.to_nat (wire_value little n)) (hd ++ n) len0)))
            (quits c Panic)) len)).
    { apply next_calls. intros l. split; [|exact I]. intros x. apply next_calls. intros n. destruct (Z.ltb_spec 100 (wire_value little n)); [exact I|]. apply directory_calls. lia. }
    destruct len; try exact I; intros x; apply next_calls; intros _; exact K.
  Qed.
End Calls.

Ltac quit := cbn [next follows quits o_res o_profile o_events o_ctx with_io p_io];
  split; [reflexivity|]; eexists; split; [reflexivity|]; cbn [o_res o_events o_ctx]; split; [reflexivity|]; split; reflexivity.

Section Open.
  Context {S : Type} (e : env) (w : world) (h : IOHandler S) (I : S -> Prop) (c : Context) (now : NaiveDateTime).
  Context (HON : honest e h I).
  Local Notation little := (feat_le e).

  Lemma read_typed n s r s1 l : I s -> io_read h s (repeat 0 n) = (r, s1, l) -> length l = n /\ are_bytes l /\ I s1.
  Proof. intros HI E. exact (proj1 HON _ _ _ _ _ HI E). Qed.

  (** The profile after the entries [es] were read. *)
  Definition after (f : S) (hd : ICCHeader) (dd : NaiveDateTime) (hs : Z) (es : list (list Z)) (s : S) : Profile S :=
    with_tags (with_io (set_created_id (set_header_fields (with_mode (profile_new now) f false) hd) dd (h_profile_id hd)) s)
      (table_of (filter (fun t => last_byte t <=? hs) (map (decode_tag little) es))).

  Lemma after_all f b cb es len s : length b = 128%nat -> length cb = 4%nat -> Forall twelve es ->
    wire_value little cb = Z.of_nat (length es) -> real_dt (h_date (decode_header little b)) ->
    after f (decode_header little b) (spec_date (h_date (decode_header little b))) (Z.min (h_size (decode_header little b)) len) es s =
    spec_profile little (b ++ cb ++ concat es) len (Some s).
  Proof.
    intros LB LC TW LE RD. unfold after. rewrite assembled_any. unfold spec_profile, accepted, entries. rewrite header_of_app by exact LB.
    set (hd := decode_header little b).
    assert (DEC : declared little (b ++ cb ++ concat es) = Z.of_nat (length es)).
    { unfold declared. rewrite word_at by exact LB. rewrite word_prefix by exact LC. rewrite <- LE. unfold word. cbn [skipn]. now rewrite <- LC, firstn_all. }
    rewrite DEC, Nat2Z.id.
    rewrite (map_entries little _ es (length es) eq_refl) by (intros i x N; now apply entry_at).
    assert (FE : filter (in_file little (b ++ cb ++ concat es) len) (map (decode_tag little) es) =
                 filter (fun t0 => last_byte t0 <=? Z.min (h_size hd) len) (map (decode_tag little) es)).
    { apply filter_ext. intros a. unfold in_file, limit. f_equal. f_equal.
      change (h_size hd) with (word little b 0 4).
      unfold word. cbn [skipn]. rewrite firstn_app. replace (4 - length b)%nat with O by lia. cbn. now rewrite app_nil_r. }
    rewrite FE. reflexivity.
  Qed.

  Lemma directory_follows f b cb len : length b = 128%nat -> length cb = 4%nat -> real_dt (h_date (decode_header little b)) ->
    0 <= Z.min (h_size (decode_header little b)) len < 4294967296 ->
    let hd := decode_header little b in
    let hs := Z.min (h_size hd) len in
    let dd := spec_date (h_date hd) in
    forall n es s, I s -> Forall twelve es -> wire_value little cb = Z.of_nat (length es + n) -> (length es + n <= 100)%nat ->
    exists r s' t, read_tags e h hs n (table_of (filter (fun t => last_byte t <=? hs) (map (decode_tag little) es))) s = (r, s', t) /\
      follows h (directory little (ovf e) c n (b ++ cb ++ concat es) len) s
        (Ok (mkOut r (with_tags (with_io (set_created_id (set_header_fields (with_mode (profile_new now) f false) hd) dd (h_profile_id hd)) s') t) c [])) s'.
  Proof.
    intros LB LC RD LIM hd hs dd. induction n as [|n IH]; intros es s HI TW NE L.
    - eexists _, _, _. split; [reflexivity|]. cbn [directory follows opens]. split; [reflexivity|]. eexists _, s. split; [reflexivity|]. cbn [o_res o_events o_ctx o_profile].
      repeat split. apply (after_all f b cb es len s); try assumption. now rewrite NE, Nat.add_0_r.
    - cbn [read_tags directory follows]. unfold read_array. destruct (io_read h s (repeat 0 12)) as ((r & s1) & l) eqn:E.
      destruct (read_typed _ _ _ _ _ HI E) as (LL & BL & HI1). destruct r as [u|k|].
      2,3: eexists _, s1, _; (split; [reflexivity|]); quit.
      assert (TL : twelve l) by now split. rewrite tag_decodes by assumption. destruct (decode_tag_u32 little l TL) as (U1 & U2).
      rewrite rejected_spec by assumption. cbn [next]. change (word little l 4 4 + word little l 8 4) with (last_byte (decode_tag little l)).
      destruct (ovf e && (4294967296 <=? last_byte (decode_tag little l))) eqn:OV.
      { eexists _, s1, _. split; [reflexivity|]. quit. }
      assert (LF : (length (filter (fun t => (last_byte t <=? hs)%Z) (map (decode_tag little) es)) <= length es)%nat).
      { rewrite <- (map_length (decode_tag little) es). generalize (map (decode_tag little) es). clear. intros l. induction l as [|x l IH]; [cbn; lia|]. cbn [filter]. destruct (_ <=? _); cbn [length]; lia. }
      destruct (IH (es ++ [l]) s1 HI1) as (r & s' & t & R & F).
      + apply Forall_app. split; [exact TW|]. constructor; [exact TL|constructor].
      + rewrite NE, app_length. cbn. lia.
      + rewrite app_length. cbn. lia.
      + rewrite concat_app in F. cbn [concat] in F. rewrite app_nil_r in F. rewrite !app_assoc in F. rewrite <- (app_assoc b cb) in F.
        rewrite map_app, filter_app in R. cbn [map filter] in R. rewrite <- !app_assoc in F |- *. exists r, s', t.
        split; [|exact F]. destruct (last_byte (decode_tag little l) <=? hs) eqn:LE; cbn [negb].
        * rewrite add_tag_table by lia. exact R.
        * rewrite app_nil_r in R. exact R.
  Qed.

  Lemma opening_follows : does h I (opening little (ovf e) w c) (fun s =>
    let o := read_header_thr e w h c (with_mode (profile_new now) s false) in (Ok o, match p_io (o_profile o) with Some s' => s' | None => s end)).
  Proof.
    intros s HI. cbv zeta. cbn [fst snd opening follows]. unfold read_header_thr. cbn [with_mode p_io with_io]. unfold read_array.
    destruct (io_read h s (repeat 0 128)) as ((r & s1) & b) eqn:E. destruct (read_typed _ _ _ _ _ HI E) as (LB & BB & HI1). destruct r as [u|k|].
    2,3: quit.
    rewrite from_bytes_decodes by assumption. set (hd := decode_header little b). assert (WF : header_wf hd) by now apply decode_wf.
    rewrite magic_value. unfold sig_eqb. cbn [next follows]. destruct (Z.eqb_spec (h_magic hd) 1633907568) as [EM|EM]; cbn [negb].
    2:{ right. split; [exact EM|]. unfold signal_error. cbn [complains follows]. quit. }
    left. split; [exact EM|]. cbn [follows length_then]. unfold reported_size, bind. destruct HON as (SA & HS & HT).
    destruct (io_tell h s1) as [[pos|k|] s2] eqn:E2.
    2,3: quit.
    destruct (HT _ _ _ HI1 E2) as (HI2 & _). cbn [next follows].
    destruct (io_seek h s2 (SeekEnd 0)) as [[[]|k|] s3] eqn:E3.
    2,3: quit.
    assert (HI3 := HS _ _ _ _ HI2 E3). cbn [next follows].
    destruct (io_tell h s3) as [x s4] eqn:E4. destruct (HT _ _ _ HI3 E4) as (HI4 & RANGE).
    destruct x as [len|k|].
    3: quit.
    2:{ cbn [follows]. destruct (io_seek h s4 (SeekStart pos)) as [[[]|k'|] s5] eqn:E5; quit. }
    cbn [follows]. destruct (io_seek h s4 (SeekStart pos)) as [[[]|k'|] s5] eqn:E5.
    2,3: quit.
    assert (HI5 := HS _ _ _ _ HI4 E5). specialize (RANGE len eq_refl). cbn [next follows].
    assert (SZ : 0 <= h_size hd < 4294967296) by (apply u32_word; [exact BB|lia]).
    rewrite u32_as_usize by exact SZ. rewrite limit_min.
    assert (DW : date_wf (h_date hd)) by apply WF.
    destruct (real_dt_dec _ DW) as [RD|RD].
    2:{ right. split; [exact RD|]. rewrite to_naive_none by assumption. quit. }
    left. split; [exact RD|]. rewrite to_naive_some by assumption. unfold read_directory. pose proof (read4 e h I s5 SA HI5) as T. cbn [follows].
    destruct (io_read h s5 (repeat 0 4)) as (([u4|k|] & s6) & n4) eqn:E6.
    2,3: rewrite T; quit.
    destruct T as (T & U & HI6). destruct (read_typed _ _ _ _ _ HI5 E6) as (L4 & B4 & _). rewrite T. cbn [next follows].
    change (Z.of_nat MAX_TABLE_TAG) with 100. destruct (Z.ltb_spec 100 (wire_value little n4)) as [TM|TM].
    { unfold signal_error. cbn [complains follows]. quit. }
    unfold is_uint in U. set (N := wire_value little n4) in *.
    destruct (directory_follows s b n4 len LB L4 RD ltac:(fold hd; lia) (Z.to_nat N) [] s6 HI6 ltac:(constructor) ltac:(cbn; fold N; lia) ltac:(cbn; lia))
      as (r & s' & t & R & F).
    cbn [concat] in F. rewrite app_nil_r in F. fold hd in R, F. change (tags_of _) with (table_of []).
    match goal with |- context [read_tags ?a ?b ?c ?n ?x ?y] =>
      change (read_tags a b c n x y) with (read_tags e h (Z.min (h_size hd) len) (Z.to_nat N) (table_of []) s6) end.
    cbn [map filter] in R. rewrite R. exact F.
  Qed.
End Open.

Lemma as_usize_range e x : 0 <= as_usize e x < usize_lim e.
Proof. unfold as_usize. apply Z.mod_pos_bound. unfold usize_lim, usize_bits. destruct (is64 e); reflexivity. Qed.
Lemma mem_honest e : honest e (mem_io e) (fun s => are_bytes (mem_data s)).
Proof.
  split; [apply mem_sane|]. split.
  - intros s p r s' B H. cbn [io_seek mem_io] in H. unfold mem_seek in H. destruct p; [|destruct (_ && _)..]; injection H as <- <-; exact B.
  - intros s r s' B H. cbn [io_tell mem_io] in H. unfold mem_tell in H. injection H as <- <-. split; [exact B|]. intros n E. injection E as <-. apply as_usize_range.
Qed.
Lemma file_honest e : honest e (file_io e) (fun s => are_bytes (f_data s)).
Proof.
  split; [apply file_sane|]. split.
  - intros s p r s' B H. cbn [io_seek file_io] in H. unfold file_seek in H.
    destruct p; [destruct (_ <? _)|destruct (_ <? 0); [|destruct (_ <? _)]..]; injection H as <- <-; exact B.
  - intros s r s' B H. cbn [io_tell file_io] in H. unfold file_tell in H. injection H as <- <-. split; [exact B|]. intros n E. injection E as <-. apply as_usize_range.
Qed.
Lemma null_honest e : honest e (null_io e) (null_wf e).
Proof.
  assert (P : 0 < usize_lim e) by (unfold usize_lim, usize_bits; destruct (is64 e); reflexivity).
  assert (ADD : forall a b p, 0 <= a + b -> usize_add e a b = Some p -> 0 <= p < usize_lim e).
  { intros a b p N H. unfold usize_add in H. destruct (Z.ltb_spec (a + b) (usize_lim e)); [injection H as <-; lia|]. destruct (ovf e); [discriminate|]. injection H as <-. now apply Z.mod_pos_bound. }
  split; [|split].
  - intros s n r s' b (B & U) H. pose proof (null_sane e s n r s' b Logic.I H) as (L & BB & _). split; [exact L|]. split; [exact BB|].
    cbn [io_read null_io] in H. unfold null_read in H. destruct (usize_add _ _ _) as [q|] eqn:E; injection H as <- <- <-; [|now split]. split; [|exact U]. cbn [pointer]. apply ADD in E; lia.
  - intros s p r s' (B & U) H. cbn [io_seek null_io] in H. unfold null_seek in H. destruct p as [v|v|v]; pose proof (as_usize_range e v) as V.
    + injection H as <- <-. now split.
    + destruct (usize_add _ _ _) as [q|] eqn:E; injection H as <- <-; [|now split]. split; [|exact U]. cbn [pointer]. apply ADD in E; lia.
    + destruct (usize_add _ _ _) as [q|] eqn:E; injection H as <- <-; [|now split]. split; [|exact U]. cbn [pointer]. apply ADD in E; lia.
  - intros s r s' B H. cbn [io_tell null_io] in H. unfold null_tell in H. injection H as <- <-. split; [exact B|]. intros n E. injection E as <-. apply B.
Qed.
