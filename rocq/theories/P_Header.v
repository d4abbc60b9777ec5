(** Header, tag entry and date codecs: lemmas behind C27-C31. *)
From Coq Require Import ZifyBool Znumtheory.
From Verif Require Import M_Base M_Endian M_Signature M_Header S_Bytes S_Header P_Bytes P_Endian.

(** The [repr(C)] layout has no padding: every field starts where the previous one ends. *)
Lemma header_no_padding :
  repr_c 0 header_fields = [0; 4; 8; 12; 16; 20; 24; 36; 40; 44; 48; 52; 56; 64; 68; 80; 84; 100] /\
  (forall k, (k < 17)%nat -> nth (S k) (repr_c 0 header_fields) 0 = nth k (repr_c 0 header_fields) 0 + fst (nth k header_fields (0, 1))) /\
  fold_right Z.add 0 (map fst header_fields) = 128.
Proof.
  repeat split. intros k Hk. do 17 (destruct k as [|k]; [reflexivity|]). lia.
Qed.

Lemma slice_bytes o n l : are_bytes l -> are_bytes (slice o n l).
Proof.
  intros H. unfold slice, are_bytes in *. rewrite Forall_forall in *. intros x Hx.
  apply H. rewrite <- (firstn_skipn o l). apply in_or_app. right.
  rewrite <- (firstn_skipn n (skipn o l)). apply in_or_app. now left.
Qed.
Lemma slice_length o n l : (o + n <= length l)%nat -> length (slice o n l) = n.
Proof. intros H. unfold slice. rewrite firstn_length, skipn_length. lia. Qed.

Lemma adjust_at e b o n : are_bytes b -> (o + n <= length b)%nat ->
  adjust_int e n (ne_at e b o n) = word (feat_le e) b o n.
Proof.
  intros HB HL. unfold ne_at, word. fold (slice o n b).
  rewrite <- (slice_length o n b HL) at 1. apply adjust_ne_val. now apply slice_bytes.
Qed.

Lemma ne_at_uint e b o n : are_bytes b -> (o + n <= length b)%nat -> is_uint n (ne_at e b o n).
Proof. intros HB HL. unfold ne_at. rewrite <- (slice_length o n b HL) at 1. apply ne_val_bound. now apply slice_bytes. Qed.

Lemma i32_u32 v : is_uint 4 v -> i32_to_u32 (u32_to_i32 v) = v.
Proof.
  unfold is_uint, i32_to_u32, u32_to_i32. change (256 ^ Z.of_nat 4) with 4294967296.
  intros H. destruct (v <? 2 ^ 31) eqn:E.
  - apply Z.mod_small. lia.
  - rewrite <- (Z.mod_small v (2 ^ 32)) at 2 by lia. rewrite <- (Z_mod_plus_full (v - 2 ^ 32) 1). f_equal; lia.
Qed.
Lemma u32_i32 v : is_i32 v -> u32_to_i32 (i32_to_u32 v) = v.
Proof.
  unfold is_i32, i32_to_u32, u32_to_i32. intros H. destruct (0 <=? v) eqn:E.
  - rewrite Z.mod_small by lia. destruct (v <? 2 ^ 31) eqn:E2; lia.
  - rewrite <- (Z_mod_plus_full v 1). rewrite Z.mod_small by lia. destruct (v + 1 * 2 ^ 32 <? 2 ^ 31) eqn:E2; lia.
Qed.
Lemma i32_to_u32_uint v : is_uint 4 (i32_to_u32 v).
Proof. unfold is_uint, i32_to_u32. change (256 ^ Z.of_nat 4) with (2 ^ 32). apply Z.mod_pos_bound. lia. Qed.

Lemma adjust_signed_at e b o : are_bytes b -> (o + 4 <= length b)%nat ->
  adjust_i32 e (u32_to_i32 (ne_at e b o 4)) = sword (feat_le e) b o.
Proof.
  intros HB HL. unfold adjust_i32. rewrite i32_u32 by now apply ne_at_uint.
  rewrite adjust_at by assumption. reflexivity.
Qed.

Lemma from_bytes_decodes e b : are_bytes b -> length b = 128%nat ->
  header_from_bytes e b = decode_header (feat_le e) b.
Proof.
  intros HB HL. unfold header_from_bytes, header_swap, header_of_repr, sig_of_u32, sig_to_u32.
  cbn [h_size h_cmm_id h_version h_device_class h_color_space h_pcs h_date h_magic h_platform h_flags h_manufacturer
       h_model h_attributes h_rendering_intent h_illuminant h_creator h_profile_id h_reserved
       dt_year dt_month dt_day dt_hours dt_minutes dt_seconds ex_x ex_y ex_z].
  repeat match goal with |- context [header_offset ?k] =>
    let v := eval vm_compute in (header_offset k) in change (header_offset k) with v end.
  rewrite !adjust_signed_at by (try assumption; lia).
  rewrite !adjust_at by (try assumption; lia).
  reflexivity.
Qed.

(** ** Encoding *)
Definition enc_header (little : bool) (h : ICCHeader) : list Z :=
  let w := wire_enc little in
  w 4%nat (h_size h) ++ w 4%nat (h_cmm_id h) ++ w 4%nat (h_version h) ++ w 4%nat (h_device_class h) ++
  w 4%nat (h_color_space h) ++ w 4%nat (h_pcs h) ++
  w 2%nat (dt_year (h_date h)) ++ w 2%nat (dt_month (h_date h)) ++ w 2%nat (dt_day (h_date h)) ++
  w 2%nat (dt_hours (h_date h)) ++ w 2%nat (dt_minutes (h_date h)) ++ w 2%nat (dt_seconds (h_date h)) ++
  w 4%nat (h_magic h) ++ w 4%nat (h_platform h) ++ w 4%nat (h_flags h) ++ w 4%nat (h_manufacturer h) ++
  w 4%nat (h_model h) ++ w 8%nat (h_attributes h) ++ w 4%nat (h_rendering_intent h) ++
  w 4%nat (i32_to_u32 (ex_x (h_illuminant h))) ++ w 4%nat (i32_to_u32 (ex_y (h_illuminant h))) ++
  w 4%nat (i32_to_u32 (ex_z (h_illuminant h))) ++
  w 4%nat (h_creator h) ++ h_profile_id h ++ h_reserved h.

Lemma ne_adjust_i32 e v : is_i32 v -> ne_bytes e 4 (i32_to_u32 (adjust_i32 e v)) = wire_enc (feat_le e) 4 (i32_to_u32 v).
Proof.
  intros H. unfold adjust_i32. rewrite i32_u32 by apply adjust_int_uint, i32_to_u32_uint. apply ne_adjust.
Qed.

Lemma to_bytes_encodes e h : header_wf h -> header_to_bytes e h = enc_header (feat_le e) h.
Proof.
  intros (_ & _ & _ & _ & _ & _ & _ & _ & _ & _ & _ & _ & _ & _ & (H1 & H2 & H3) & _).
  unfold header_to_bytes, header_to_repr, header_swap, enc_header, sig_of_u32, sig_to_u32.
  cbn [h_size h_cmm_id h_version h_device_class h_color_space h_pcs h_date h_magic h_platform h_flags h_manufacturer
       h_model h_attributes h_rendering_intent h_illuminant h_creator h_profile_id h_reserved
       dt_year dt_month dt_day dt_hours dt_minutes dt_seconds ex_x ex_y ex_z].
  rewrite !ne_adjust_i32 by assumption. rewrite !ne_adjust. reflexivity.
Qed.

Lemma firstn_app_l {A} n (a r : list A) : length a = n -> firstn n (a ++ r) = a.
Proof. intros H. rewrite firstn_app, H, Nat.sub_diag, firstn_O, app_nil_r. rewrite <- H. apply firstn_all. Qed.
Lemma skipn_app_l {A} n k (a r : list A) : length a = n -> skipn (n + k) (a ++ r) = skipn k r.
Proof.
  intros H. rewrite skipn_app, H. rewrite (skipn_all2 a) by lia. simpl. f_equal. lia.
Qed.

Lemma enc_length little h : header_wf h -> length (enc_header little h) = 128%nat.
Proof.
  intros (_ & _ & _ & _ & _ & _ & _ & _ & _ & _ & _ & _ & _ & _ & _ & _ & (_ & L1) & (_ & L2)).
  unfold enc_header. rewrite !app_length, !wire_enc_length, L1, L2. reflexivity.
Qed.
Lemma enc_bytes little h : header_wf h -> are_bytes (enc_header little h).
Proof.
  intros (_ & _ & _ & _ & _ & _ & _ & _ & _ & _ & _ & _ & _ & _ & _ & _ & (L1 & _) & (L2 & _)).
  unfold enc_header, are_bytes. repeat (apply Forall_app; split); try assumption; apply wire_enc_bytes.
Qed.

Lemma skipn_list (a r : list Z) k off : length a = k -> (k <= off)%nat -> skipn off (a ++ r) = skipn (off - k) r.
Proof. intros L H. replace off with (k + (off - k))%nat at 1 by lia. now apply skipn_app_l. Qed.

Ltac skips := repeat match goal with
  |- context [skipn ?off (wire_enc ?l ?k ?v ++ ?r)] =>
    let m := eval vm_compute in (off - k)%nat in
    let ok := eval vm_compute in (k <=? off)%nat in
    match ok with true => change (skipn off (wire_enc l k v ++ r)) with (skipn (k + m)%nat (wire_enc l k v ++ r));
      rewrite (skipn_app_l k m (wire_enc l k v) r (wire_enc_length l k v)) end end.

Lemma decode_enc little h : header_wf h -> decode_header little (enc_header little h) = h.
Proof.
  intros WF. unfold header_wf, date_wf in WF. decompose [and] WF. clear WF.
  unfold decode_header, sword, word, enc_header.
  skips.
  rewrite !skipn_O.
  rewrite (skipn_list (h_profile_id h) _ 16) by (assumption || lia). simpl Nat.sub. rewrite skipn_O.
  rewrite !firstn_app_l by (apply wire_enc_length || assumption).
  rewrite (firstn_all2 (h_reserved h)) by lia.
  rewrite !wire_value_enc by (assumption || apply i32_to_u32_uint).
  repeat match goal with H : is_i32 ?v |- context [if i32_to_u32 ?v <? 2147483648 then _ else _] =>
    change (if i32_to_u32 v <? 2147483648 then i32_to_u32 v else i32_to_u32 v - 4294967296) with (u32_to_i32 (i32_to_u32 v));
    rewrite (u32_i32 v H)
  end.
  destruct h as [? ? ? ? ? ? [] ? ? ? ? ? ? ? [] ? ? ?]. reflexivity.
Qed.

Lemma wire_word little b o n : are_bytes b -> (o + n <= length b)%nat ->
  wire_enc little n (word little b o n) = firstn n (skipn o b).
Proof.
  intros HB HL. unfold word. fold (slice o n b). rewrite <- (slice_length o n b HL) at 1.
  apply wire_enc_value. now apply slice_bytes.
Qed.
Lemma word_uint little b o n : are_bytes b -> (o + n <= length b)%nat -> is_uint n (word little b o n).
Proof.
  intros HB HL. unfold word. fold (slice o n b).
  pose proof (slice_length o n b HL) as L. pose proof (slice_bytes o n b HB) as B.
  rewrite <- L at 1. unfold wire_value. destruct little.
  - rewrite <- le_val_spec. now apply le_val_bound.
  - rewrite <- be_val_spec. now apply be_val_bound.
Qed.

Lemma firstn_sum {A} n m (l : list A) : firstn n l ++ firstn m (skipn n l) = firstn (n + m) l.
Proof. revert l. induction n as [|n IH]; intros l; [reflexivity|]. destruct l; simpl; [now rewrite firstn_nil|]. now rewrite IH. Qed.
Lemma skipn_sum {A} o n (l : list A) : skipn (o + n) l = skipn n (skipn o l).
Proof. revert l. induction o as [|o IH]; intros l; [reflexivity|]. destruct l; [now rewrite !skipn_nil|]. apply IH. Qed.
Lemma take_more {A} n m o (b r : list A) : r = firstn m (skipn (o + n) b) -> firstn n (skipn o b) ++ r = firstn (n + m) (skipn o b).
Proof. intros ->. rewrite skipn_sum. apply firstn_sum. Qed.

Lemma i32_sword little b o : are_bytes b -> (o + 4 <= length b)%nat -> i32_to_u32 (sword little b o) = word little b o 4.
Proof.
  intros HB HL. unfold sword.
  change (i32_to_u32 (u32_to_i32 (word little b o 4)) = word little b o 4). apply i32_u32. now apply word_uint.
Qed.

Lemma enc_decode little b : are_bytes b -> length b = 128%nat -> enc_header little (decode_header little b) = b.
Proof.
  intros HB HL. unfold enc_header, decode_header.
  cbn [h_size h_cmm_id h_version h_device_class h_color_space h_pcs h_date h_magic h_platform h_flags h_manufacturer
       h_model h_attributes h_rendering_intent h_illuminant h_creator h_profile_id h_reserved
       dt_year dt_month dt_day dt_hours dt_minutes dt_seconds ex_x ex_y ex_z].
  rewrite !i32_sword by (try assumption; lia).
  rewrite !wire_word by (try assumption; lia).
  transitivity (firstn 128 (skipn 0 b)); [|rewrite skipn_O; apply firstn_all2; lia].
  do 24 (rewrite app_assoc_reverse || idtac).
  repeat match goal with |- firstn ?n (skipn ?o b) ++ _ = firstn ?t (skipn ?o b) =>
    let m := eval vm_compute in (t - n)%nat in
    change t with (n + m)%nat; apply take_more; simpl (_ + _)%nat end.
  reflexivity.
Qed.

Lemma decode_wf little b : are_bytes b -> length b = 128%nat -> header_wf (decode_header little b).
Proof.
  intros HB HL. unfold header_wf, date_wf, decode_header.
  cbn [h_size h_cmm_id h_version h_device_class h_color_space h_pcs h_date h_magic h_platform h_flags h_manufacturer
       h_model h_attributes h_rendering_intent h_illuminant h_creator h_profile_id h_reserved
       dt_year dt_month dt_day dt_hours dt_minutes dt_seconds ex_x ex_y ex_z].
  assert (SW : forall o, (o + 4 <= length b)%nat -> is_i32 (sword little b o)).
  { intros o Ho. pose proof (word_uint little b o 4 HB Ho) as U. unfold is_uint in U.
    change (256 ^ Z.of_nat 4) with 4294967296 in U. unfold sword, is_i32. cbv zeta.
    destruct (word little b o 4 <? 2147483648) eqn:E; lia. }
  repeat match goal with |- _ /\ _ => split end; try (apply word_uint; [assumption|lia]); try (apply SW; lia);
    match goal with |- context [firstn ?n (skipn ?o b)] => fold (slice o n b) end;
    first [now apply slice_bytes | apply slice_length; lia].
Qed.

Lemma header_round_trip_bytes e b : are_bytes b -> length b = 128%nat -> header_to_bytes e (header_from_bytes e b) = b.
Proof.
  intros HB HL. rewrite from_bytes_decodes by assumption. rewrite to_bytes_encodes by now apply decode_wf.
  now apply enc_decode.
Qed.
Lemma header_round_trip_value e h : header_wf h -> header_from_bytes e (header_to_bytes e h) = h.
Proof.
  intros H. rewrite to_bytes_encodes by assumption. rewrite from_bytes_decodes.
  - now apply decode_enc.
  - now apply enc_bytes.
  - now apply enc_length.
Qed.
Lemma header_to_bytes_shape e h : header_wf h -> are_bytes (header_to_bytes e h) /\ length (header_to_bytes e h) = 128%nat.
Proof. intros H. rewrite to_bytes_encodes by assumption. split; [now apply enc_bytes|now apply enc_length]. Qed.

(** ** Tag entries *)
Lemma tag_decodes e b : are_bytes b -> length b = 12%nat -> tag_from_bytes e b = decode_tag (feat_le e) b.
Proof.
  intros HB HL. unfold tag_from_bytes, tag_swap, tag_of_repr, sig_of_u32, sig_to_u32. cbn [t_sig t_offset t_size].
  rewrite !adjust_at by (try assumption; lia). reflexivity.
Qed.
Lemma tag_encodes e t : tag_to_bytes e t = wire_enc (feat_le e) 4 (t_sig t) ++ wire_enc (feat_le e) 4 (t_offset t) ++ wire_enc (feat_le e) 4 (t_size t).
Proof. unfold tag_to_bytes, tag_to_repr, tag_swap, sig_of_u32, sig_to_u32. cbn [t_sig t_offset t_size]. now rewrite !ne_adjust. Qed.
Lemma tag_round_trip_bytes e b : are_bytes b -> length b = 12%nat -> tag_to_bytes e (tag_from_bytes e b) = b.
Proof.
  intros HB HL. rewrite tag_decodes by assumption. rewrite tag_encodes. unfold decode_tag. cbn [t_sig t_offset t_size].
  rewrite !wire_word by (try assumption; lia).
  transitivity (firstn 12 (skipn 0 b)); [|rewrite skipn_O; apply firstn_all2; lia].
  change 12%nat with (4 + 8)%nat. apply take_more. change 8%nat with (4 + 4)%nat. apply take_more. reflexivity.
Qed.
Lemma tag_round_trip_value e t : tag_wf t -> tag_from_bytes e (tag_to_bytes e t) = t.
Proof.
  intros (H1 & H2 & H3). rewrite tag_decodes.
  - rewrite tag_encodes. unfold decode_tag, word.
    skips. rewrite !skipn_O.
    rewrite !firstn_app_l by apply wire_enc_length. rewrite (firstn_all2 (wire_enc _ 4 (t_size t))) by (rewrite wire_enc_length; lia).
    rewrite !wire_value_enc by assumption. now destruct t.
  - rewrite tag_encodes. unfold are_bytes. repeat (apply Forall_app; split); apply wire_enc_bytes.
  - rewrite tag_encodes, !app_length, !wire_enc_length. reflexivity.
Qed.
Lemma tag_to_bytes_shape e t : are_bytes (tag_to_bytes e t) /\ length (tag_to_bytes e t) = 12%nat.
Proof.
  rewrite tag_encodes. split.
  - unfold are_bytes. repeat (apply Forall_app; split); apply wire_enc_bytes.
  - rewrite !app_length, !wire_enc_length. reflexivity.
Qed.

(** ** Dates *)
Lemma leap_iff y : chrono_leap y = true <-> leap_year y.
Proof.
  unfold chrono_leap, leap_year. rewrite andb_true_iff, orb_true_iff, negb_true_iff, !Z.eqb_eq, Z.eqb_neq.
  rewrite !Z.mod_divide by lia. tauto.
Qed.
Lemma month_len y m : 1 <= m <= 12 -> days_in y m (chrono_month_len y m).
Proof.
  intros H.
  assert (E : m = 1 \/ m = 2 \/ m = 3 \/ m = 4 \/ m = 5 \/ m = 6 \/ m = 7 \/ m = 8 \/ m = 9 \/ m = 10 \/ m = 11 \/ m = 12) by lia.
  unfold chrono_month_len.
  repeat destruct E as [E|E]; subst; cbn -[chrono_leap]; try constructor.
  destruct (chrono_leap y) eqn:L; constructor.
  - now apply leap_iff.
  - intros HL. apply leap_iff in HL. congruence.
Qed.
Lemma days_in_fun y m n n' : days_in y m n -> days_in y m n' -> n = n'.
Proof. intros H H'. inversion H; subst; inversion H'; subst; try reflexivity; tauto. Qed.
Lemma days_in_month y m n : days_in y m n -> 1 <= m <= 12.
Proof. intros H. inversion H; lia. Qed.

Lemma ymd_iff y m d : -262144 <= y <= 262143 -> (chrono_ymd_ok y m d = true <-> real_date y m d).
Proof.
  intros Hy. unfold chrono_ymd_ok, real_date. split.
  - intros H. assert (1 <= m <= 12) by lia. exists (chrono_month_len y m). split; [now apply month_len|lia].
  - intros (n & Hn & Hd). pose proof (days_in_month _ _ _ Hn) as Hm.
    rewrite (days_in_fun _ _ _ _ Hn (month_len y m Hm)) in Hd. lia.
Qed.
Lemma hms_iff h mi s : 0 <= h -> 0 <= mi -> 0 <= s -> (chrono_hms_ok h mi s = true <-> real_time h mi s).
Proof. intros. unfold chrono_hms_ok, real_time. lia. Qed.

Lemma date_wf_ranges d : date_wf d ->
  0 <= dt_year d < 65536 /\ 0 <= dt_month d < 65536 /\ 0 <= dt_day d < 65536 /\
  0 <= dt_hours d < 65536 /\ 0 <= dt_minutes d < 65536 /\ 0 <= dt_seconds d < 65536.
Proof. unfold date_wf, is_uint. change (256 ^ Z.of_nat 2) with 65536. tauto. Qed.

Lemma to_naive_some d : date_wf d -> real_dt d ->
  dt_to_naive d = Some (mkND (dt_year d) (dt_month d) (dt_day d) (dt_hours d) (dt_minutes d) (dt_seconds d) 0).
Proof.
  intros WF [HD HT]. apply date_wf_ranges in WF. unfold dt_to_naive.
  apply (ymd_iff (dt_year d)) in HD; [|lia]. apply (hms_iff (dt_hours d)) in HT; [|lia|lia|lia]. now rewrite HD, HT.
Qed.
Lemma to_naive_none d : date_wf d -> ~ real_dt d -> dt_to_naive d = None.
Proof.
  intros WF H. apply date_wf_ranges in WF. unfold dt_to_naive.
  destruct (chrono_ymd_ok _ _ _) eqn:E1; [|reflexivity].
  destruct (chrono_hms_ok _ _ _) eqn:E2; [|reflexivity].
  exfalso. apply H. split; [apply ymd_iff; [lia|assumption]|apply hms_iff; [lia|lia|lia|assumption]].
Qed.

Lemma real_dt_small d : date_wf d -> real_dt d -> 1 <= dt_month d <= 12 /\ 1 <= dt_day d <= 31.
Proof.
  intros WF [(n & Hn & Hd) _]. split; [eapply days_in_month; eassumption|]. inversion Hn; lia.
Qed.

Lemma dt_there_and_back d : date_wf d -> real_dt d ->
  option_map naive_to_dt (dt_to_naive d) =
  Some (mkDT (if dt_year d =? 0 then 1 else dt_year d) (dt_month d) (dt_day d) (dt_hours d) (dt_minutes d) (dt_seconds d)).
Proof.
  intros WF R. rewrite to_naive_some by assumption. apply date_wf_ranges in WF.
  unfold naive_to_dt, year_ce. cbn [option_map nd_year nd_month nd_day nd_hour nd_min nd_sec snd].
  rewrite (Z.mod_small (dt_month d)), (Z.mod_small (dt_day d)), (Z.mod_small (dt_hours d)),
    (Z.mod_small (dt_minutes d)), (Z.mod_small (dt_seconds d)) by lia.
  f_equal. f_equal. destruct (dt_year d <? 1) eqn:E; destruct (dt_year d =? 0) eqn:E2; cbn [snd]; try lia.
  - replace (dt_year d) with 0 by lia. reflexivity.
  - apply Z.mod_small. lia.
Qed.

Lemma nd_month_day d : real_nd d -> 1 <= nd_month d <= 12 /\ 1 <= nd_day d <= 31.
Proof.
  intros (_ & (n & Hn & Hd) & _). split; [eapply days_in_month; eassumption|]. inversion Hn; lia.
Qed.
Lemma nd_to_dt d : real_nd d ->
  naive_to_dt d = mkDT ((if 1 <=? nd_year d then nd_year d else 1 - nd_year d) mod 65536)
                       (nd_month d) (nd_day d) (nd_hour d) (nd_min d) (nd_sec d).
Proof.
  intros R. pose proof (nd_month_day d R) as M. destruct R as (Hy & HD & (T1 & T2 & T3)).
  unfold naive_to_dt, year_ce. rewrite !(Z.mod_small (nd_month d)), !(Z.mod_small (nd_day d)), !(Z.mod_small (nd_hour d)),
    !(Z.mod_small (nd_min d)), !(Z.mod_small (nd_sec d)) by lia.
  f_equal. destruct (nd_year d <? 1) eqn:E, (1 <=? nd_year d) eqn:E2; cbn [snd]; try lia; reflexivity.
Qed.
Lemma nd_there_and_back d : real_nd d -> 1 <= nd_year d <= 65535 ->
  dt_to_naive (naive_to_dt d) = Some (mkND (nd_year d) (nd_month d) (nd_day d) (nd_hour d) (nd_min d) (nd_sec d) 0).
Proof.
  intros R Hy. pose proof (nd_month_day d R) as M. rewrite nd_to_dt by assumption.
  replace (1 <=? nd_year d) with true by lia. rewrite Z.mod_small by lia.
  destruct R as (_ & HD & HT). rewrite to_naive_some; [reflexivity| |split; assumption].
  destruct HT as (T1 & T2 & T3). unfold date_wf, is_uint. change (256 ^ Z.of_nat 2) with 65536. cbn. lia.
Qed.
Lemma dt_unchanged_iff d : date_wf d -> real_dt d ->
  (option_map naive_to_dt (dt_to_naive d) = Some d <-> dt_year d <> 0).
Proof.
  intros WF R. rewrite dt_there_and_back by assumption. destruct d as [y m dd h mi s]. cbn. split.
  - intros E. injection E as E. destruct (y =? 0) eqn:E0; lia.
  - intros E. destruct (y =? 0) eqn:E0; [lia|reflexivity].
Qed.
