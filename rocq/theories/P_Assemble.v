(** Writing a profile file and opening it (C68). *)
From Coq Require Import ZifyBool String.
From Verif Require Import M_Base M_Endian M_IO M_FileMem M_FileFile M_Signature M_SigTables M_Header M_Context M_Profile
  S_Bytes S_Header S_Profile S_Assemble P_Bytes P_Endian P_List P_FileMem P_Typed P_FileFile P_Header P_Profile P_Open P_Open3 P_Same P_Source.
Local Open Scope list_scope.
Local Open Scope Z_scope.
Notation length := List.length.
#[local] Arguments off_max : simpl never.

(** Appending to a file being written. *)
Definition at_end (f : File) : Prop := f_writable f = true /\ f_pos f = zlen (f_data f) /\ no_fail (f_sched f).

Lemma put_end d bs : put d (zlen d) bs = d ++ bs.
Proof.
  destruct bs as [|b bs]; [cbn; now rewrite app_nil_r|].
  pose proof (put_length d (zlen d) (b :: bs) ltac:(unfold zlen; lia) ltac:(discriminate)) as L.
  set (x := put d (zlen d) (b :: bs)) in *. unfold zlen in L.
  apply (list_ext _ _ 0); [rewrite app_length; lia|].
  intros i Hi. unfold x. rewrite nth_put by (unfold zlen; lia). unfold zlen. rewrite Nat2Z.id.
  destruct (Nat.lt_ge_cases i (length d)) as [H|H].
  - replace (Z.of_nat (length d) <=? Z.of_nat i) with false by lia. cbn [andb]. now rewrite app_nth1.
  - replace (Z.of_nat (length d) <=? Z.of_nat i) with true by lia.
    replace (Z.of_nat i <? Z.of_nat (length d) + Z.of_nat (length (b :: bs))) with true by lia. cbn [andb]. now rewrite app_nth2.
Qed.

Lemma append e f bs : at_end f -> zlen (f_data f) + zlen bs <= off_max ->
  exists f', io_write (file_io e) f bs = (Ok tt, f') /\ f_data f' = f_data f ++ bs /\ at_end f'.
Proof.
  intros (W & P & N) L. cbn [io_write file_io].
  pose proof (zlen_nonneg bs). pose proof (zlen_nonneg (f_data f)).
  destruct (file_write_gen f bs W ltac:(lia)) as (r & f' & k & E & E1 & E2 & E3 & E4 & E5 & E6 & E7 & E8).
  destruct E8 as [(-> & ->)|(_ & _ & [E8|E8])]; [|contradiction|lia].
  exists f'. split; [exact E|]. rewrite firstn_all, P, put_end in E6. split; [exact E6|].
  split; [exact E2|]. split; [|auto]. rewrite E4, E6, P. unfold zlen. rewrite app_length. lia.
Qed.

Lemma save_entries_append e ts : forall f, at_end f -> zlen (f_data f) + 12 * Z.of_nat (length ts) <= off_max ->
  exists f', save_entries e (file_io e) ts f = (Ok tt, f') /\ f_data f' = f_data f ++ concat (map (tag_to_bytes e) ts) /\ at_end f'.
Proof.
  induction ts as [|t ts IH]; intros f A L.
  - exists f. cbn. rewrite app_nil_r. auto.
  - cbn [length] in L. destruct (tag_to_bytes_shape e t) as (_ & LT).
    destruct (append e f (tag_to_bytes e t) A ltac:(unfold zlen in *; lia)) as (f1 & E1 & D1 & A1).
    destruct (IH f1 A1) as (f2 & E2 & D2 & A2).
    { rewrite D1. unfold zlen in *. rewrite app_length. lia. }
    exists f2. cbn [save_entries]. rewrite E1. cbn [bind]. split; [exact E2|]. split; [|exact A2].
    rewrite D2, D1. cbn [map concat]. now rewrite app_assoc.
Qed.

Definition file_of (e : env) (h : ICCHeader) (ts : list TagEntry) (data : list Z) : list Z :=
  header_to_bytes e h ++ wire_enc (feat_le e) 4 (Z.of_nat (length ts)) ++ concat (map (tag_to_bytes e) ts) ++ data.

Lemma entries_bytes_length e ts : length (concat (map (tag_to_bytes e) ts)) = (12 * length ts)%nat.
Proof.
  induction ts as [|t ts IH]; [reflexivity|]. cbn [map concat length]. rewrite app_length, IH. destruct (tag_to_bytes_shape e t) as (_ & ->). lia.
Qed.

Lemma file_of_length e h ts data : header_wf h -> zlen (file_of e h ts data) = saved_length ts data.
Proof.
  intros WF. destruct (header_to_bytes_shape e h WF) as (_ & LH). unfold file_of, saved_length, zlen.
  rewrite !app_length, LH, wire_enc_length, entries_bytes_length. lia.
Qed.

Lemma save_appends e h ts data sched : header_wf h -> no_fail sched -> saved_length ts data <= off_max ->
  exists f, save e (file_io e) h ts data (mkFile [] 0 false true sched) = (Ok tt, f) /\ f_data f = file_of e h ts data.
Proof.
  intros WF NF L. destruct (header_to_bytes_shape e h WF) as (_ & LH). unfold saved_length in L.
  destruct (append e (mkFile [] 0 false true sched) (header_to_bytes e h)) as (f1 & E1 & D1 & A1).
  { repeat split. exact NF. }
  { cbn [f_data]. unfold zlen. cbn [length]. lia. }
  cbn [f_data app] in D1.
  destruct (append e f1 (wire_enc (feat_le e) 4 (Z.of_nat (length ts))) A1) as (f2 & E2 & D2 & A2).
  { rewrite D1. unfold zlen. rewrite wire_enc_length. lia. }
  destruct (save_entries_append e ts f2 A2) as (f3 & E3 & D3 & A3).
  { rewrite D2, D1. unfold zlen. rewrite app_length, wire_enc_length. lia. }
  destruct (append e f3 data A3) as (f4 & E4 & D4 & A4).
  { rewrite D3, D2, D1. unfold zlen. rewrite !app_length, wire_enc_length, entries_bytes_length. lia. }
  exists f4. unfold save. rewrite E1. cbn [bind]. unfold write_u32. rewrite ne_adjust. rewrite E2. cbn [bind].
  rewrite E3. cbn [bind]. split; [exact E4|]. rewrite D4, D3, D2, D1. unfold file_of. now rewrite <- !app_assoc.
Qed.

Lemma file_of_bytes e h ts data : header_wf h -> are_bytes data -> are_bytes (file_of e h ts data).
Proof.
  intros WF HD. unfold file_of, are_bytes. apply Forall_app. split; [apply (header_to_bytes_shape e h WF)|].
  apply Forall_app. split; [apply wire_enc_bytes|]. apply Forall_app. split; [|exact HD].
  induction ts as [|t ts IH]; [constructor|]. cbn [map concat]. apply Forall_app. split; [apply tag_to_bytes_shape|exact IH].
Qed.

Lemma file_of_header e h ts data : header_wf h -> decode_header (feat_le e) (file_of e h ts data) = h.
Proof.
  intros WF. unfold file_of. destruct (header_to_bytes_shape e h WF) as (_ & LH). rewrite header_of_app by exact LH.
  rewrite to_bytes_encodes by exact WF. now apply decode_enc.
Qed.

Lemma file_of_declared e h ts data : header_wf h -> Z.of_nat (length ts) < 4294967296 ->
  declared (feat_le e) (file_of e h ts data) = Z.of_nat (length ts).
Proof.
  intros WF L. unfold file_of. destruct (header_to_bytes_shape e h WF) as (_ & LH). unfold declared.
  rewrite word_at by exact LH. rewrite word_prefix by apply wire_enc_length. unfold word. cbn [skipn].
  rewrite <- (wire_enc_length (feat_le e) 4 (Z.of_nat (length ts))) at 1. rewrite firstn_all.
  apply wire_value_enc. unfold is_uint. change (256 ^ Z.of_nat 4) with 4294967296. lia.
Qed.

Lemma file_of_entry e h ts data i t : header_wf h -> Forall tag_wf ts -> nth_error ts i = Some t ->
  entry (feat_le e) (file_of e h ts data) i = t.
Proof.
  intros WF TW N. rewrite <- entry_decode.
  assert (X : firstn 12 (skipn (132 + 12 * i) (file_of e h ts data)) = tag_to_bytes e t).
  { unfold file_of. rewrite app_assoc.
    set (hd := header_to_bytes e h ++ wire_enc (feat_le e) 4 (Z.of_nat (length ts))).
    assert (LH : length hd = 132%nat) by (unfold hd; rewrite app_length, wire_enc_length, (proj2 (header_to_bytes_shape e h WF)); reflexivity).
    replace (132 + 12 * i)%nat with (length hd + 12 * i)%nat by lia.
    rewrite skipn_sum, skipn_app, Nat.sub_diag, skipn_all. cbn [app skipn].
    apply concat_nth.
    - apply Forall_forall. intros b Hb. apply in_map_iff in Hb as (t' & <- & _). destruct (tag_to_bytes_shape e t'); split; assumption.
    - rewrite nth_error_map, N. reflexivity. }
  rewrite X. destruct (tag_to_bytes_shape e t) as (BT & LT).
  rewrite <- tag_decodes by assumption. apply tag_round_trip_value.
  rewrite Forall_forall in TW. apply TW. now apply nth_error_In in N.
Qed.

Lemma file_of_entries e h ts data : header_wf h -> Forall tag_wf ts -> Z.of_nat (length ts) < 4294967296 ->
  entries (feat_le e) (file_of e h ts data) = ts.
Proof.
  intros WF TW L. unfold entries. rewrite file_of_declared by assumption. rewrite Nat2Z.id.
  apply nth_error_same. intros i. rewrite nth_error_map. destruct (nth_error ts i) as [t|] eqn:E.
  - assert (i < length ts)%nat by (apply nth_error_Some; congruence).
    rewrite nth_error_nth' with (d := 0%nat) by (rewrite seq_length; lia). rewrite seq_nth by lia. cbn [option_map].
    change (0 + i)%nat with i. now rewrite (file_of_entry e h ts data i t WF TW E).
  - apply nth_error_None in E. replace (nth_error (seq 0 (length ts)) i) with (@None nat); [reflexivity|].
    symmetry. apply nth_error_None. now rewrite seq_length.
Qed.

Lemma save_then_open e1 e2 w now sched sched' ctx fs q h ts data :
  feat_le e1 = feat_le e2 ->
  header_wf h -> Forall tag_wf ts -> are_bytes data ->
  h_magic h = 1633907568 -> real_dt (h_date h) -> (length ts <= 100)%nat ->
  (ovf e2 = true -> Forall (fun t => last_byte t < 4294967296) ts) ->
  saved_length ts data <= 9223372036854775807 -> no_fail sched -> no_fail sched' ->
  exists f, save e1 (file_io e1) h ts data (mkFile [] 0 false true sched) = (Ok tt, f) /\
    forall r, r = open_from_file_thr e2 w now sched' ctx fs q ModeRead ->
    fs_content fs q = Some (f_data f) -> fs_may_read fs q = true ->
    or_ctx r = ctx /\ or_events r = [] /\
    exists io, or_res r =
      Ok (profile_with h (filter (fun t => last_byte t <=? Z.min (h_size h) (saved_length ts data mod usize_lim e2)) ts) (Some io)).
Proof.
  intros FE WF TW HD HM HR L100 OV LEN NF NF'.
  destruct (save_appends e1 h ts data sched WF NF LEN) as (f & E & D). exists f. split; [exact E|].
  intros r -> HC HMR. rewrite D in HC.
  assert (OP : openable fs q (file_of e1 h ts data)).
  { split; [exact HC|]. split; [exact HMR|]. split; [now apply file_of_bytes|].
    change (zlen (file_of e1 h ts data) <= 9223372036854775807). now rewrite file_of_length. }
  assert (LT : Z.of_nat (length ts) < 4294967296) by lia.
  pose proof (open_read_judged e2 w now sched' ctx fs q _ Opens OP NF') as O.
  destruct O as (O1 & O2 & io & O3).
  { apply JOpens; rewrite <- FE.
    - now rewrite file_of_header.
    - now rewrite file_of_header.
    - rewrite file_of_declared by assumption. lia.
    - intros X i Hi. rewrite file_of_declared in Hi by assumption. rewrite Nat2Z.id in Hi.
      destruct (nth_error ts i) as [t|] eqn:N; [|apply nth_error_None in N; lia].
      unfold overflowing. rewrite (file_of_entry e1 h ts data i t WF TW N).
      specialize (OV X). rewrite Forall_forall in OV. specialize (OV t (nth_error_In _ _ N)). lia.
    - rewrite file_of_declared by assumption. change (132 + 12 * Z.of_nat (length ts) <= zlen (file_of e1 h ts data)).
      rewrite file_of_length by exact WF. unfold saved_length. lia. }
  split; [exact O1|]. split; [exact O2|]. eexists. rewrite O3. f_equal.
  unfold spec_profile. rewrite <- FE. rewrite file_of_header by exact WF.
  unfold accepted. rewrite file_of_entries by assumption. unfold profile_with.
  change (Z.of_nat (length (file_of e1 h ts data))) with (zlen (file_of e1 h ts data)). rewrite file_of_length by exact WF.
  assert (FX : filter (in_file (feat_le e1) (file_of e1 h ts data) (saved_length ts data mod usize_lim e2)) ts =
          filter (fun t => last_byte t <=? Z.min (h_size h) (saved_length ts data mod usize_lim e2)) ts).
  { apply filter_ext. intros t. unfold in_file, limit.
    change (word (feat_le e1) (file_of e1 h ts data) 0 4) with (h_size (decode_header (feat_le e1) (file_of e1 h ts data))).
    now rewrite file_of_header. }
  rewrite FX. reflexivity.
Qed.

(** ** Builds of different byte order *)
Lemma save_then_open_other e1 e2 w now sched sched' ctx fs q h ts data :
  feat_le e1 <> feat_le e2 ->
  header_wf h -> are_bytes data -> h_magic h = 1633907568 ->
  saved_length ts data <= 9223372036854775807 -> no_fail sched -> no_fail sched' ->
  exists f, save e1 (file_io e1) h ts data (mkFile [] 0 false true sched) = (Ok tt, f) /\
    forall r, r = open_from_file_thr e2 w now sched' ctx fs q ModeRead ->
    fs_content fs q = Some (f_data f) -> fs_may_read fs q = true ->
    or_res r = Err InvalidData /\
    or_events r = [(EC_BadSignature, text "not an ICC profile, invalid signature"%string)].
Proof.
  intros FE WF HD HM LEN NF NF'.
  destruct (save_appends e1 h ts data sched WF NF LEN) as (f & E & D). exists f. split; [exact E|].
  intros r -> HC HMR. rewrite D in HC.
  pose proof (file_of_length e1 h ts data WF) as FL. unfold zlen, saved_length in *.
  assert (OP : openable fs q (file_of e1 h ts data)).
  { split; [exact HC|]. split; [exact HMR|]. split; [now apply file_of_bytes|]. lia. }
  pose proof (bad_magic_reported e2 w now sched' ctx fs q _ OP NF') as R. cbv zeta in R.
  destruct R as (R1 & R2 & _); [lia| |auto].
  replace (feat_le e2) with (negb (feat_le e1)) by (now destruct (feat_le e1), (feat_le e2)).
  apply word_in_other_order.
  - now apply file_of_bytes.
  - lia.
  - change (h_magic (decode_header (feat_le e1) (file_of e1 h ts data)) = 1633907568). now rewrite file_of_header.
Qed.
