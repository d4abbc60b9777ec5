(** C27-C31: header and tag entry codecs, dates. *)
From Verif Require Import M_Base M_Header S_Bytes S_Header P_Header Props_Endian.

(** C27 *)
Theorem C27_decode_then_encode :
  forall (e : env) (b : list Z), are_bytes b -> length b = 128%nat -> header_to_bytes e (header_from_bytes e b) = b.
Proof. exact header_round_trip_bytes. Qed.
Print Assumptions C27_decode_then_encode.

Theorem C27_encode_then_decode :
  forall (e : env) (h : ICCHeader), header_wf h ->
    are_bytes (header_to_bytes e h) /\ length (header_to_bytes e h) = 128%nat /\
    header_from_bytes e (header_to_bytes e h) = h.
Proof. exact (fun e h H => conj (proj1 (header_to_bytes_shape e h H)) (conj (proj2 (header_to_bytes_shape e h H)) (header_round_trip_value e h H))). Qed.
Print Assumptions C27_encode_then_decode.

(** C28 *)
Theorem C28_fields_at_icc_offsets :
  forall (e : env) (b : list Z), are_bytes b -> length b = 128%nat ->
    header_from_bytes e b = decode_header (feat_le e) b.
Proof. exact from_bytes_decodes. Qed.
Print Assumptions C28_fields_at_icc_offsets.

Theorem C28_decoded_fields_in_range :
  forall (e : env) (b : list Z), are_bytes b -> length b = 128%nat -> header_wf (header_from_bytes e b).
Proof. exact (fun e b H L => eq_ind_r header_wf (decode_wf (feat_le e) b H L) (from_bytes_decodes e b H L)). Qed.
Print Assumptions C28_decoded_fields_in_range.

Theorem C28_host_independent :
  forall (e1 e2 : env) (b : list Z), feat_le e1 = feat_le e2 -> are_bytes b -> length b = 128%nat ->
    header_from_bytes e1 b = header_from_bytes e2 b.
Proof.
  exact (fun e1 e2 b F H L => eq_trans (from_bytes_decodes e1 b H L)
    (eq_trans (f_equal (fun f => decode_header f b) F) (eq_sym (from_bytes_decodes e2 b H L)))).
Qed.
Print Assumptions C28_host_independent.

(** The header of /repo/resources/test/sRGB_v4_ICC_preference.icc (the file the repository's test opens). *)
Definition srgb_header : list Z :=
  [0;0;238;32;0;0;0;0;4;32;0;0;115;112;97;99;
   82;71;66;32;76;97;98;32;7;215;0;7;0;25;0;0;
   0;5;0;37;97;99;115;112;0;0;0;0;0;0;0;0;
   0;0;0;0;0;0;0;0;0;0;0;0;0;0;0;0;
   0;0;0;0;0;0;246;214;0;1;0;0;0;0;211;45;
   0;0;0;0;52;86;42;191;153;76;205;6;109;44;87;33;
   208;214;140;93;0;0;0;0;0;0;0;0;0;0;0;0;
   0;0;0;0;0;0;0;0;0;0;0;0;0;0;0;0].

Example C28_srgb :
  are_bytes srgb_header /\ length srgb_header = 128%nat /\
  let h := header_from_bytes s390 srgb_header in
  h = header_from_bytes pc srgb_header /\
  h_size h = 60960 /\ h_version h = 69206016 (* 0x04200000 *) /\
  h_date h = mkDT 2007 7 25 0 5 37 /\ h_magic h = 1633907568 (* "acsp" *) /\
  ex_x (h_illuminant h) = 63190 /\ ex_y (h_illuminant h) = 65536 /\ ex_z (h_illuminant h) = 54061.
Proof.
  split; [|vm_compute; repeat split].
  apply Forall_forall. intros x Hx.
  assert (H : forallb (fun b => (0 <=? b) && (b <? 256)) srgb_header = true) by (vm_compute; reflexivity).
  rewrite forallb_forall in H. specialize (H x Hx). unfold is_byte. lia.
Qed.

(** C29 *)
Theorem C29_tag_entry_fields :
  forall (e : env) (b : list Z), are_bytes b -> length b = 12%nat -> tag_from_bytes e b = decode_tag (feat_le e) b.
Proof. exact tag_decodes. Qed.
Print Assumptions C29_tag_entry_fields.

Theorem C29_tag_entry_bijection :
  (forall (e : env) (b : list Z), are_bytes b -> length b = 12%nat -> tag_to_bytes e (tag_from_bytes e b) = b) /\
  (forall (e : env) (t : TagEntry), tag_wf t ->
     are_bytes (tag_to_bytes e t) /\ length (tag_to_bytes e t) = 12%nat /\ tag_from_bytes e (tag_to_bytes e t) = t).
Proof.
  exact (conj tag_round_trip_bytes (fun e t H =>
    conj (proj1 (tag_to_bytes_shape e t)) (conj (proj2 (tag_to_bytes_shape e t)) (tag_round_trip_value e t H)))).
Qed.
Print Assumptions C29_tag_entry_bijection.

Example C29_example :
  tag_from_bytes pc [100;101;115;99; 0;0;0;240; 0;0;0;118] = mkTag 1684370275 (* "desc" *) 240 118 /\
  tag_from_bytes s390 [100;101;115;99; 0;0;0;240; 0;0;0;118] = mkTag 1684370275 240 118 /\
  tag_to_bytes pc (mkTag 1684370275 240 118) = [100;101;115;99; 0;0;0;240; 0;0;0;118].
Proof. vm_compute. auto. Qed.

(** C30; [None] is the panic. *)
Theorem C30_real_dates_convert :
  forall d : DateTimeNumber, date_wf d -> real_dt d ->
    dt_to_naive d = Some {| nd_year := dt_year d; nd_month := dt_month d; nd_day := dt_day d;
                            nd_hour := dt_hours d; nd_min := dt_minutes d; nd_sec := dt_seconds d; nd_nano := 0 |}.
Proof. exact to_naive_some. Qed.
Print Assumptions C30_real_dates_convert.

Theorem C30_other_dates_panic :
  forall d : DateTimeNumber, date_wf d -> ~ real_dt d -> dt_to_naive d = None.
Proof. exact to_naive_none. Qed.
Print Assumptions C30_other_dates_panic.

Example C30_examples :
  real_dt (mkDT 2000 2 29 23 59 59) /\ ~ real_dt (mkDT 1900 2 29 0 0 0) /\ ~ real_dt (mkDT 2007 7 25 0 0 60) /\
  ~ real_dt (mkDT 2007 0 25 0 0 0) /\ ~ real_dt (mkDT 0 0 0 0 0 0).
Proof.
  assert (W : forall y m d h mi s, 0 <= y < 65536 -> 0 <= m < 65536 -> 0 <= d < 65536 -> 0 <= h < 65536 ->
    0 <= mi < 65536 -> 0 <= s < 65536 -> date_wf (mkDT y m d h mi s)).
  { intros. unfold date_wf, is_uint. change (256 ^ Z.of_nat 2) with 65536. cbn. lia. }
  split.
  - split; [|unfold real_time; cbn; lia]. exists 29. split; [|cbn; lia]. constructor. split; [exists 500; reflexivity|].
    right. exists 5. reflexivity.
  - repeat split; intros R; apply to_naive_some in R; try discriminate R; apply W; lia.
Qed.

(** C31 *)
Theorem C31_icc_date_there_and_back :
  forall d : DateTimeNumber, date_wf d -> real_dt d ->
    option_map naive_to_dt (dt_to_naive d) =
    Some (mkDT (if dt_year d =? 0 then 1 else dt_year d) (dt_month d) (dt_day d) (dt_hours d) (dt_minutes d) (dt_seconds d)).
Proof. exact dt_there_and_back. Qed.
Print Assumptions C31_icc_date_there_and_back.

Theorem C31_icc_date_unchanged_iff :
  forall d : DateTimeNumber, date_wf d -> real_dt d ->
    (option_map naive_to_dt (dt_to_naive d) = Some d <-> dt_year d <> 0).
Proof. exact dt_unchanged_iff. Qed.
Print Assumptions C31_icc_date_unchanged_iff.

Theorem C31_calendar_date_to_icc :
  forall d : NaiveDateTime, real_nd d ->
    naive_to_dt d = mkDT ((if 1 <=? nd_year d then nd_year d else 1 - nd_year d) mod 65536)
                         (nd_month d) (nd_day d) (nd_hour d) (nd_min d) (nd_sec d).
Proof. exact nd_to_dt. Qed.
Print Assumptions C31_calendar_date_to_icc.

Theorem C31_calendar_date_there_and_back :
  forall d : NaiveDateTime, real_nd d -> 1 <= nd_year d <= 65535 ->
    dt_to_naive (naive_to_dt d) =
    Some (mkND (nd_year d) (nd_month d) (nd_day d) (nd_hour d) (nd_min d) (nd_sec d) 0).
Proof. exact nd_there_and_back. Qed.
Print Assumptions C31_calendar_date_there_and_back.

(** The year-0 case can turn a real date into one that does not exist: 29 February of year 0 comes back
    as 29 February of year 1, and converting that again panics. *)
Example C31_examples :
  option_map naive_to_dt (dt_to_naive (mkDT 2007 7 25 0 5 37)) = Some (mkDT 2007 7 25 0 5 37) /\
  option_map naive_to_dt (dt_to_naive (mkDT 0 2 29 0 0 0)) = Some (mkDT 1 2 29 0 0 0) /\
  dt_to_naive (mkDT 1 2 29 0 0 0) = None /\
  naive_to_dt (mkND 67543 7 25 0 5 37 5) = mkDT 2007 7 25 0 5 37.
Proof. vm_compute. auto. Qed.
