(** Opening a profile: lemmas behind C32-C42. *)
From Coq Require Import ZifyBool String.
From Verif Require Import M_Base M_Endian M_IO M_FileMem M_FileFile M_Signature M_SigTables M_Header M_Context M_Profile
  S_Bytes S_Header S_Profile P_Bytes P_Endian P_List P_FileMem P_FileFile P_Header.
Local Open Scope list_scope.
Local Open Scope Z_scope.
Notation length := List.length.
#[local] Arguments off_max : simpl never.

(** [lia] on the plain arithmetic part of a large context. *)
Ltac slim := repeat match goal with
  | H : _ \/ _ |- _ => clear H
  | H : _ -> _ |- _ => match type of H with ?A -> ?B => match type of A with Prop => clear H end end
  | H : ~ (no_fail _) |- _ => clear H
  | H : @eq bool _ _ |- _ => clear H
  | H : exists _, _ |- _ => clear H
  | H : @eq (prod _ _) _ _ |- _ => clear H
  | H : @eq (res _) _ _ |- _ => clear H
  | H : @eq (list _) _ _ |- _ => clear H
  | H : same_data _ _ = _ |- _ => clear H
  end.
Ltac slia := slim; lia.

(** ** Reading from a file under any schedule *)
Definition same_file (s' s : File) : Prop :=
  f_data s' = f_data s /\ f_readable s' = f_readable s /\ f_writable s' = f_writable s.

Lemma file_read_cases e n s : f_readable s = true -> 0 <= f_pos s ->
  exists s', same_file s' s /\ (no_fail (f_sched s) -> no_fail (f_sched s')) /\
    ((read_array (file_io e) n s = (Ok (firstn n (skipn (Z.to_nat (f_pos s)) (f_data s))), s') /\
      (n <> O -> f_pos s + Z.of_nat n <= zlen (f_data s)) /\ f_pos s' = f_pos s + Z.of_nat n) \/
     (read_array (file_io e) n s = (Err UnexpectedEof, s') /\ zlen (f_data s) < f_pos s + Z.of_nat n) \/
     (read_array (file_io e) n s = (Err OsError, s') /\ ~ no_fail (f_sched s))).
Proof.
  intros Hr Hp.
  destruct (file_read_gen s (repeat 0 n) Hr Hp) as (r & s' & buf' & k & E & E1 & E2 & E3 & E4 & E5 & E6 & E7 & E8 & E9).
  rewrite repeat_length in *. exists s'. split; [repeat split; congruence|]. split; [exact E8|].
  unfold read_array. cbn [io_read file_io]. rewrite E.
  assert (L : (k <= length (f_data s) - Z.to_nat (f_pos s))%nat).
  { unfold reads_of in E6. rewrite firstn_length, skipn_length in E6. lia. }
  destruct E9 as [[-> ->]|[(-> & K1 & K2)|(-> & K1 & K2)]].
  - left. subst buf'. rewrite skipn_all2, app_nil_r by (rewrite repeat_length; lia). unfold reads_of.
    split; [reflexivity|]. split; [|exact E4]. unfold zlen. intros. lia.
  - right. left. split; [reflexivity|]. unfold zlen. lia.
  - right. right. auto.
Qed.

Lemma reported_size_any e s : 0 <= f_pos s <= off_max -> zlen (f_data s) <= off_max ->
  reported_size (file_io e) s =
  (Ok (zlen (f_data s) mod usize_lim e),
   mkFile (f_data s) (f_pos s mod usize_lim e) (f_readable s) (f_writable s) (f_sched s)).
Proof.
  intros Hp Hl. pose proof (zlen_nonneg (f_data s)).
  unfold reported_size. cbn [io_tell io_seek file_io]. unfold file_tell, bind at 1.
  unfold file_seek at 1. rewrite Z.add_0_r.
  replace (zlen (f_data s) <? 0) with false by lia.
  replace (off_max <? zlen (f_data s)) with false by lia.
  cbn [bind file_seek f_pos f_data f_readable f_writable f_sched]. unfold as_usize.
  replace (off_max <? f_pos s mod usize_lim e) with false; [reflexivity|].
  pose proof (Z.mod_le (f_pos s) (usize_lim e)).
  destruct (usize_lim_cases e) as [E|E]; rewrite E in *; lia.
Qed.

(** ** The tag table *)
Lemma set_nth_app {A} (l : list A) x r v : set_nth (l ++ x :: r) (length l) v = Some (l ++ v :: r).
Proof. induction l as [|a l IH]; [reflexivity|]. cbn. now rewrite IH. Qed.
Lemma nth_error_mid {A} (l : list A) x r : nth_error (l ++ x :: r) (length l) = Some x.
Proof. induction l; [reflexivity|]. exact IHl. Qed.

Lemma set_pad {A} (d : A) l v : (length l < 100)%nat -> set_nth (pad d l) (length l) v = Some (pad d (l ++ [v])).
Proof.
  intros H. unfold pad. rewrite app_length. cbn [length].
  replace (100 - length l)%nat with (S (100 - (length l + 1))) by lia. cbn [repeat].
  rewrite set_nth_app. now rewrite <- app_assoc.
Qed.

(** [link_pass] over entries [b] after entries [a]. *)
Definition relink (tag : TagEntry) (b : list TagEntry) (l : list (option Signature)) : list (option Signature) :=
  map (fun x => if same_data (fst x) tag then Some (t_sig (fst x)) else snd x) (combine b l).

Lemma link_pass_app tag b : forall a X Y Z' l1 l2 W,
  length l1 = length a -> length l2 = length b ->
  link_pass (length b) (length a) (map t_sig (a ++ b) ++ X) (map t_size (a ++ b) ++ Y) (map t_offset (a ++ b) ++ Z')
            (t_offset tag) (t_size tag) (l1 ++ l2 ++ W)
  = Some (l1 ++ relink tag b l2 ++ W).
Proof.
  induction b as [|x b IH]; intros a X Y Z' l1 l2 W L1 L2.
  - destruct l2; [reflexivity|discriminate].
  - destruct l2 as [|y l2]; [discriminate|]. cbn [length link_pass].
    assert (N : forall (A : Type) (f : TagEntry -> A) V, nth_error (map f (a ++ x :: b) ++ V) (length a) = Some (f x)).
    { intros A f V. rewrite map_app. cbn [map]. rewrite <- app_assoc. cbn [app]. rewrite <- (map_length f a). apply nth_error_mid. }
    rewrite !N.
    assert (S : forall v, set_nth (l1 ++ (y :: l2) ++ W) (length a) v = Some (l1 ++ v :: l2 ++ W)).
    { intros v. cbn [app]. rewrite <- L1. apply set_nth_app. }
    specialize (IH (a ++ [x]) X Y Z').
    replace (length (a ++ [x])) with (Datatypes.S (length a)) in IH by (rewrite app_length; cbn; lia).
    rewrite <- !app_assoc in IH. cbn [app] in IH.
    unfold relink. cbn [combine map fst snd]. fold (relink tag b l2). unfold same_data at 1.
    destruct ((t_offset x =? t_offset tag) && (t_size x =? t_size tag)) eqn:E.
    + rewrite S. specialize (IH (l1 ++ [Some (t_sig x)]) l2 W). rewrite <- !app_assoc in IH. cbn [app] in IH.
      rewrite IH; [reflexivity| |]; [rewrite app_length; cbn; lia|cbn in L2; lia].
    + specialize (IH (l1 ++ [y]) l2 W). rewrite <- !app_assoc in IH. cbn [app] in IH.
      cbn [app]. rewrite IH; [reflexivity| |]; [rewrite app_length; cbn; lia|cbn in L2; lia].
Qed.

Lemma links_length l : length (links l) = length l.
Proof. induction l; [reflexivity|]. cbn. now rewrite IHl. Qed.
Lemma links_snoc l t : links (l ++ [t]) = relink t l (links l) ++ [None].
Proof.
  induction l as [|x l IH]; [reflexivity|]. cbn [app links]. rewrite IH. unfold relink. cbn [combine map fst snd app].
  f_equal. rewrite existsb_app. cbn [existsb]. rewrite orb_false_r.
  destruct (existsb (same_data x) l), (same_data x t); reflexivity.
Qed.
Lemma relink_length t l m : length m = length l -> length (relink t l m) = length l.
Proof. intros H. unfold relink. rewrite map_length, combine_length. lia. Qed.

Definition table_of (a : list TagEntry) : TagTable :=
  mkTT (length a) (pad 538976288 (map t_sig a)) (pad None (links a)) (pad 0 (map t_size a)) (pad 0 (map t_offset a)).

Lemma add_tag_table a t : (length a < 100)%nat -> add_tag (table_of a) t = Some (table_of (a ++ [t])).
Proof.
  intros H. unfold add_tag, table_of. cbn [tt_names tt_count tt_offsets tt_sizes tt_linked].
  assert (SP : forall (A : Type) (dd : A) f v, set_nth (pad dd (map f a)) (length a) v = Some (pad dd (map f a ++ [v]))).
  { intros A dd f v. rewrite <- (map_length f a). apply set_pad. rewrite map_length. lia. }
  rewrite !SP.
  pose proof (link_pass_app t a [] (t_sig t :: repeat 538976288 (100 - length (map t_sig a ++ [t_sig t])))
     (t_size t :: repeat 0 (100 - length (map t_size a ++ [t_size t])))
     (t_offset t :: repeat 0 (100 - length (map t_offset a ++ [t_offset t]))) [] (links a)
     (repeat None (100 - length (links a))) eq_refl (links_length a)) as L.
  cbn [app length] in L. unfold pad.
  rewrite <- !app_assoc. cbn [app].
  match type of L with _ = ?rhs => match goal with |- match ?x with _ => _ end = _ =>
    replace x with rhs by (symmetry; exact L) end end.
  f_equal. rewrite !map_app. cbn [map]. rewrite <- !app_assoc. cbn [app].
  rewrite links_snoc, <- !app_assoc. cbn [app]. rewrite !app_length, links_length, relink_length by apply links_length. cbn [length].
  replace (100 - length a)%nat with (S (100 - (length a + 1))) by lia. cbn [repeat].
  replace (length a + 1)%nat with (S (length a)) by lia. reflexivity.
Qed.

(** ** Directory entries *)
Lemma firstn_skipn_firstn {A} n k o m (d : list A) : (n + k <= m)%nat ->
  firstn n (skipn k (firstn m (skipn o d))) = firstn n (skipn (o + k) d).
Proof.
  intros H. rewrite skipn_firstn_comm, firstn_firstn. replace (Nat.min n (m - k)) with n by lia.
  f_equal. now rewrite skipn_sum.
Qed.
Lemma word_inner little d o m k n : (n + k <= m)%nat -> word little (firstn m (skipn o d)) k n = word little d (o + k) n.
Proof. intros H. unfold word. now rewrite firstn_skipn_firstn by exact H. Qed.

Lemma entry_decode little d i : decode_tag little (firstn 12 (skipn (132 + 12 * i) d)) = entry little d i.
Proof.
  unfold decode_tag, entry. rewrite !word_inner by lia.
  f_equal; [now rewrite Nat.add_0_r|f_equal; lia|f_equal; lia].
Qed.

Lemma are_bytes_part o n d : are_bytes d -> are_bytes (firstn n (skipn o d)).
Proof. apply slice_bytes. Qed.
Lemma part_length o n (d : list Z) : (o + n <= length d)%nat -> length (firstn n (skipn o d)) = n.
Proof. apply slice_length. Qed.

Lemma u32_word little d o : are_bytes d -> (o + 4 <= length d)%nat -> 0 <= word little d o 4 < 4294967296.
Proof. intros HB HL. pose proof (word_uint little d o 4 HB HL) as H. exact H. Qed.

(** The sanity test is the mathematical one. *)
Lemma rejected_spec e hs t : 0 <= t_offset t < 4294967296 -> 0 <= t_size t < 4294967296 -> 0 <= hs < 4294967296 ->
  tag_rejected e hs t =
  if ovf e && (4294967296 <=? last_byte t) then None else Some (negb (last_byte t <=? hs)).
Proof.
  intros H1 H2 H3. unfold tag_rejected, u32_add, last_byte. change (2 ^ 32) with 4294967296.
  rewrite (Z.mod_small hs) by lia.
  destruct (t_offset t + t_size t <? 4294967296) eqn:E.
  - replace (4294967296 <=? t_offset t + t_size t) with false by lia. rewrite andb_false_r. f_equal. lia.
  - replace (4294967296 <=? t_offset t + t_size t) with true by lia. rewrite andb_true_r.
    destruct (ovf e); [reflexivity|]. f_equal.
    rewrite <- (Z_mod_plus_full _ (-1)). rewrite Z.mod_small by lia. lia.
Qed.

Lemma filter_seq_step {A} (f : A -> bool) (g : nat -> A) i n :
  filter f (map g (seq i (S n))) = (if f (g i) then [g i] else []) ++ filter f (map g (seq (S i) n)).
Proof. cbn. destruct (f (g i)); reflexivity. Qed.

Lemma read_tags_walk e d hs n : are_bytes d -> 0 <= hs < 4294967296 -> let little := feat_le e in forall i acc s,
  f_data s = d -> f_readable s = true -> f_pos s = 132 + 12 * Z.of_nat i ->
  (length acc <= i)%nat -> (i + n <= 100)%nat ->
  exists r s' t, read_tags e (file_io e) hs n (table_of acc) s = (r, s', t) /\ same_file s' s /\
    ( (r = Ok tt /\ f_pos s' = 132 + 12 * Z.of_nat (i + n) /\ (n <> O -> 132 + 12 * Z.of_nat (i + n) <= zlen d) /\
       t = table_of (acc ++ filter (fun t => last_byte t <=? hs) (map (entry little d) (seq i n))) /\
       (ovf e = true -> forall k, (i <= k < i + n)%nat -> overflowing little d k = false))
    \/ (r = Panic /\ ovf e = true /\ exists k, (i <= k < i + n)%nat /\ 132 + 12 * Z.of_nat (k + 1) <= zlen d /\ overflowing little d k = true)
    \/ (r = Err UnexpectedEof /\ zlen d < 132 + 12 * Z.of_nat (i + n) /\
        (ovf e = true -> forall k, (i <= k < i + n)%nat -> 132 + 12 * Z.of_nat (k + 1) <= zlen d -> overflowing little d k = false))
    \/ (r = Err OsError /\ ~ no_fail (f_sched s)) ).
Proof.
  intros HB Hhs little. induction n as [|n IH]; intros i acc s Hd Hr Hp Ha Hn.
  { exists (Ok tt), s, (table_of acc). split; [reflexivity|]. split; [repeat split|].
    left. rewrite Nat.add_0_r. cbn. rewrite app_nil_r. repeat split; try assumption; try first [slia|lia]; try congruence. }
  cbn [read_tags].
  destruct (file_read_cases e 12 s Hr ltac:(first [slia|lia])) as (s1 & (D1 & D2 & D3) & NF & C).
  rewrite Hd in *.
  destruct C as [(E & C1 & C2)|[(E & C1)|(E & C1)]].
  2:{ rewrite E. exists (Err UnexpectedEof), s1, (table_of acc). split; [reflexivity|]. split; [repeat split; congruence|].
      right. right. left. split; [reflexivity|]. split; [first [slia|lia]|]. intros _ k Hk Hk2. first [slia|lia]. }
  2:{ rewrite E. exists (Err OsError), s1, (table_of acc). split; [reflexivity|]. split; [repeat split; congruence|].
      right. right. right. auto. }
  specialize (C1 ltac:(first [slia|lia])). rewrite E. rewrite Hp in *.
  replace (Z.to_nat (132 + 12 * Z.of_nat i)) with (132 + 12 * i)%nat by first [slia|lia].
  assert (LEN : (132 + 12 * i + 12 <= length d)%nat) by (unfold zlen in C1; first [slia|lia]).
  rewrite tag_decodes by (first [now apply are_bytes_part | now apply part_length]).
  fold little. rewrite entry_decode.
  assert (U1 : 0 <= t_offset (entry little d i) < 4294967296) by (apply u32_word; [assumption|first [slia|lia]]).
  assert (U2 : 0 <= t_size (entry little d i) < 4294967296) by (apply u32_word; [assumption|first [slia|lia]]).
  rewrite rejected_spec by assumption.
  fold (overflowing little d i).
  destruct (ovf e && overflowing little d i) eqn:OV.
  { apply andb_true_iff in OV as [OV1 OV2].
    exists Panic, s1, (table_of acc). split; [reflexivity|]. split; [repeat split; congruence|].
    right. left. repeat split; try assumption. exists i. repeat split; try assumption; first [slia|lia]. }
  assert (OVI : ovf e = true -> overflowing little d i = false).
  { intros X. rewrite X in OV. exact OV. }
  assert (STEP : forall acc', (length acc' <= S i)%nat ->
     acc ++ (if last_byte (entry little d i) <=? hs then [entry little d i] else []) = acc' ->
     exists r s' t, read_tags e (file_io e) hs n (table_of acc') s1 = (r, s', t) /\ same_file s' s /\
    ( (r = Ok tt /\ f_pos s' = 132 + 12 * Z.of_nat (i + S n) /\ (S n <> O -> 132 + 12 * Z.of_nat (i + S n) <= zlen d) /\
       t = table_of (acc ++ filter (fun t => last_byte t <=? hs) (map (entry little d) (seq i (S n)))) /\
       (ovf e = true -> forall k, (i <= k < i + S n)%nat -> overflowing little d k = false))
    \/ (r = Panic /\ ovf e = true /\ exists k, (i <= k < i + S n)%nat /\ 132 + 12 * Z.of_nat (k + 1) <= zlen d /\ overflowing little d k = true)
    \/ (r = Err UnexpectedEof /\ zlen d < 132 + 12 * Z.of_nat (i + S n) /\
        (ovf e = true -> forall k, (i <= k < i + S n)%nat -> 132 + 12 * Z.of_nat (k + 1) <= zlen d -> overflowing little d k = false))
    \/ (r = Err OsError /\ ~ no_fail (f_sched s)) )).
  { intros acc' La Eacc.
    destruct (IH (S i) acc' s1 D1 ltac:(congruence) ltac:(first [slia|lia]) La ltac:(first [slia|lia])) as (r & s' & t & R & (F1 & F2 & F3) & C).
    exists r, s', t. split; [exact R|]. split; [repeat split; congruence|].
    destruct C as [(K1 & K2 & K3 & K4 & K5)|[(K1 & K2 & k & K3 & K4 & K5)|[(K1 & K2 & K3)|(K1 & K2)]]].
    - left. split; [exact K1|]. split; [rewrite K2; f_equal; first [slia|lia]|]. split.
      { intros _. destruct n as [|n']; [|specialize (K3 ltac:(first [slia|lia]))]; first [slia|lia]. }
      split.
      { rewrite filter_seq_step, app_assoc, Eacc. exact K4. }
      intros X k Hk. destruct (Nat.eq_dec k i) as [->|Hne]; [auto|]. apply K5; [exact X|first [slia|lia]].
    - right. left. split; [exact K1|]. split; [exact K2|]. exists k. repeat split; try assumption; first [slia|lia].
    - right. right. left. split; [exact K1|]. split; [first [slia|lia]|]. intros X k Hk Hk2.
      destruct (Nat.eq_dec k i) as [->|Hne]; [auto|]. apply K3; [exact X|first [slia|lia]|exact Hk2].
    - right. right. right. split; [exact K1|]. tauto. }
  destruct (last_byte (entry little d i) <=? hs) eqn:IN; cbn [negb].
  - rewrite add_tag_table by first [slia|lia]. apply STEP; [rewrite app_length; cbn; first [slia|lia]|reflexivity].
  - apply STEP; [first [slia|lia]|apply app_nil_r].
Qed.

(** ** The whole call *)
Lemma decode_header_prefix little d : decode_header little (firstn 128 d) = decode_header little d.
Proof.
  assert (W : forall k n, (n + k <= 128)%nat -> word little (firstn 128 d) k n = word little d k n).
  { intros k n H. apply (word_inner little d 0 128 k n H). }
  assert (F : forall k n, (n + k <= 128)%nat -> firstn n (skipn k (firstn 128 d)) = firstn n (skipn k d)).
  { intros k n H. apply (firstn_skipn_firstn n k 0 128 d H). }
  unfold decode_header, sword. rewrite !W, !F by first [slia|lia]. reflexivity.
Qed.

Lemma magic_value : MAGIC_NUMBER = 1633907568.
Proof. reflexivity. Qed.

Lemma u32_as_usize e v : 0 <= v < 4294967296 -> as_usize e v = v.
Proof. intros H. unfold as_usize. apply Z.mod_small. destruct (usize_lim_cases e) as [E|E]; rewrite E; first [slia|lia]. Qed.

Lemma limit_min a b : (if b <=? a then b else a) = Z.min a b.
Proof. destruct (b <=? a) eqn:E; first [slia|lia]. Qed.

Lemma real_dt_dec d : date_wf d -> real_dt d \/ ~ real_dt d.
Proof.
  intros WF. destruct (chrono_ymd_ok (dt_year d) (dt_month d) (dt_day d)) eqn:E1, (chrono_hms_ok (dt_hours d) (dt_minutes d) (dt_seconds d)) eqn:E2;
    pose proof (date_wf_ranges d WF) as R.
  - left. split; [apply ymd_iff; [first [slia|lia]|assumption]|apply hms_iff; [first [slia|lia]|first [slia|lia]|first [slia|lia]|assumption]].
  - right. intros [_ H]. apply hms_iff in H; [congruence|first [slia|lia]|first [slia|lia]|first [slia|lia]].
  - right. intros [H _]. apply ymd_iff in H; [congruence|first [slia|lia]].
  - right. intros [H _]. apply ymd_iff in H; [congruence|first [slia|lia]].
Qed.

Lemma header_wf_prefix little d : are_bytes d -> (128 <= length d)%nat -> header_wf (decode_header little d).
Proof.
  intros HB HL. rewrite <- decode_header_prefix. apply decode_wf.
  - apply (are_bytes_part 0 128 d HB).
  - apply (part_length 0 128 d). first [slia|lia].
Qed.

Definition fresh_result (e : env) (w : world) (ctx : Context) (d : list Z) (o : outcome File) (sched : list os_event) : Prop :=
  (exists s', p_io (o_profile o) = Some s' /\ f_data s' = d) /\
  ( (exists v, judged (feat_le e) (ovf e) d v /\
      match v with
      | Opens => o_ctx o = ctx /\ o_events o = [] /\ o_res o = Ok tt /\
          exists sched', o_profile o = spec_profile (feat_le e) d (zlen d mod usize_lim e)
              (Some (mkFile d (132 + 12 * declared (feat_le e) d) true false sched'))
      | Fails k ev => o_res o = Err k /\ o_events o = ev /\ o_ctx o = call_handlers w ctx ev
      | Panics => o_res o = Panic /\ o_events o = [] /\ o_ctx o = ctx
      end)
   \/ (o_res o = Err OsError /\ o_events o = [] /\ o_ctx o = ctx /\ ~ no_fail sched)).

Lemma readable_index little d k : (132 <= length d)%nat ->
  ((k < readable_entries little d)%nat <-> (k < Z.to_nat (declared little d))%nat /\ 132 + 12 * Z.of_nat (k + 1) <= zlen d).
Proof.
  intros H. unfold readable_entries, zlen.
  assert (D : (k < (length d - 132) / 12)%nat <-> (132 + 12 * (k + 1) <= length d)%nat).
  { pose proof (Nat.div_mod (length d - 132) 12 ltac:(first [slia|lia])). pose proof (Nat.mod_upper_bound (length d - 132) 12 ltac:(first [slia|lia])).
    set (q := ((length d - 132) / 12)%nat) in *. set (m := ((length d - 132) mod 12)%nat) in *. clearbody q m. first [slia|lia]. }
  first [slia|lia].
Qed.

Lemma assembled now (f : File) hd dd s4 a :
  with_tags (with_io (set_created_id (set_header_fields (with_mode (profile_new now) f false) hd) dd (h_profile_id hd)) s4) (table_of a) =
  mkProfile (Some s4) dd (h_version hd) (h_device_class hd) (h_color_space hd) (h_pcs hd) (h_rendering_intent hd) (h_flags hd)
    (h_manufacturer hd) (h_model hd) (h_attributes hd) (h_creator hd) (h_profile_id hd)
    (length a) (pad 538976288 (map t_sig a)) (pad None (links a)) (pad 0 (map t_size a)) (pad 0 (map t_offset a)) (repeat false 100) false.
Proof. reflexivity. Qed.

Lemma read_header_fresh e w ctx now d sched :
  are_bytes d -> zlen d <= off_max ->
  fresh_result e w ctx d
    (read_header_thr e w (file_io e) ctx (with_mode (profile_new now) (mkFile d 0 true false sched) false)) sched.
Proof.
  intros HB HL. set (little := feat_le e).
  unfold read_header_thr. cbn [with_mode p_io with_io].
  destruct (file_read_cases e 128 (mkFile d 0 true false sched) eq_refl ltac:(cbn; first [slia|lia])) as (s1 & (D1 & D2 & D3) & NF & C).
  cbn [f_data f_pos f_readable f_writable f_sched] in *.
  unfold fresh_result. fold little.
  destruct C as [(E & C1 & C2)|[(E & C1)|(E & C1)]]; rewrite E.
  2:{ cbn. split; [exists s1; auto|]. left. exists (Fails UnexpectedEof []). split; [|cbn; auto].
      apply JShort. unfold zlen in *. first [slia|lia]. }
  2:{ cbn. split; [exists s1; auto|]. right. auto. }
  specialize (C1 ltac:(first [slia|lia])). change (skipn (Z.to_nat 0) d) with d.
  assert (L128 : (128 <= length d)%nat) by (unfold zlen in *; first [slia|lia]).
  pose proof (part_length 0 128 d ltac:(first [slia|lia])) as PL. cbn [skipn] in PL.
  rewrite from_bytes_decodes by first [apply (are_bytes_part 0 128 d HB) | exact PL].
  fold little. rewrite decode_header_prefix.
  set (hd := decode_header little d).
  assert (WF : header_wf hd) by now apply header_wf_prefix.
  rewrite magic_value. unfold sig_eqb.
  destruct (h_magic hd =? 1633907568) eqn:EM; cbn [negb].
  2:{ unfold signal_error. cbn. split; [exists s1; auto|]. left. eexists. split; [apply JMagic; [exact L128|]|].
      - fold hd. first [slia|lia].
      - cbn. repeat split. }
  assert (EMG : h_magic hd = 1633907568) by first [slia|lia].
  rewrite reported_size_any by (rewrite ?D1; first [slia|lia]).
  rewrite D1, D2, D3.
  pose proof (usize_lim_cases e) as UL.
  assert (P1 : f_pos s1 mod usize_lim e = 128).
  { rewrite C2. apply Z.mod_small. destruct UL as [U|U]; rewrite U; first [slia|lia]. }
  rewrite P1.
  set (len := zlen d mod usize_lim e).
  assert (LEN : 0 <= len) by (apply Z.mod_pos_bound; destruct UL as [U|U]; rewrite U; first [slia|lia]).
  assert (SZ : 0 <= h_size hd < 4294967296).
  { apply u32_word; [exact HB|first [slia|lia]]. }
  rewrite u32_as_usize by exact SZ. rewrite limit_min.
  change (Z.min (h_size hd) len) with (limit little d len).
  assert (LIM : 0 <= limit little d len < 4294967296).
  { change (limit little d len) with (Z.min (h_size hd) len). first [slia|lia]. }
  assert (DW : date_wf (h_date hd)) by apply WF.
  destruct (real_dt_dec _ DW) as [RD|RD].
  2:{ rewrite to_naive_none by assumption. cbn. split; [eexists; split; reflexivity|]. left. exists Panics. split; [|cbn; auto].
      apply JDate; assumption. }
  rewrite to_naive_some by assumption.
  unfold read_directory.
  set (s2 := mkFile d 128 true false (f_sched s1)).
  unfold read_u32.
  destruct (file_read_cases e 4 s2 eq_refl ltac:(cbn; first [slia|lia])) as (s3 & (G1 & G2 & G3) & NF3 & C3).
  cbn [f_data f_pos f_readable f_writable f_sched s2] in *.
  destruct C3 as [(E3 & K1 & K2)|[(E3 & K1)|(E3 & K1)]]; rewrite E3; cbn [bind].
  2:{ cbn. split; [exists s3; auto|]. left. exists (Fails UnexpectedEof []). split; [|cbn; auto].
      apply JNoCount; try assumption. unfold zlen in *. first [slia|lia]. }
  2:{ cbn. split; [exists s3; auto|]. right. repeat split; auto. }
  specialize (K1 ltac:(first [slia|lia])).
  assert (L132 : (132 <= length d)%nat) by (unfold zlen in *; first [slia|lia]).
  change (Z.to_nat 128) with 128%nat.
  pose proof (adjust_at e d 128 4 HB ltac:(first [slia|lia])) as AD. unfold ne_at, slice in AD. rewrite AD. clear AD.
  fold little. change (word little d 128 4) with (declared little d).
  assert (ND : 0 <= declared little d < 4294967296) by (apply u32_word; [exact HB|first [slia|lia]]).
  change (Z.of_nat MAX_TABLE_TAG) with 100.
  destruct (100 <? declared little d) eqn:ET.
  { unfold signal_error. cbn -[declared decimal]. split; [exists s3; auto|]. left. eexists. split; [apply JTooMany; try assumption; first [slia|lia]|].
    cbn -[declared decimal]. repeat split. }
  change (tags_of _) with (table_of []).
  destruct (read_tags_walk e d (limit little d len) (Z.to_nat (declared little d)) HB LIM 0 [] s3
             G1 G2 ltac:(first [slia|lia]) ltac:(cbn; first [slia|lia]) ltac:(first [slia|lia])) as (r & s4 & t & R & (F1 & F2 & F3) & CC).
  fold little in CC.
  match goal with |- context [read_tags ?a ?b ?c ?n ?x ?y] =>
    change (read_tags a b c n x y) with (read_tags e (file_io e) (limit little d len) (Z.to_nat (declared little d)) (table_of []) s3) end.
  rewrite R. cbn [o_res o_profile o_ctx o_events with_tags with_io p_io].
  split; [exists s4; split; [reflexivity|congruence]|].
  cbn [app] in CC. rewrite Nat.add_0_l in CC.
  destruct CC as [(Q1 & Q2 & Q3 & Q4 & Q5)|[(Q1 & Q2 & k & Q3 & Q4 & Q5)|[(Q1 & Q2 & Q3)|(Q1 & Q2)]]].
  - left. exists Opens. split.
    + apply JOpens; [assumption|assumption|apply Z.ltb_ge; exact ET| |].
      * intros X i Hi. apply Q5; [exact X|first [slia|lia]].
      * unfold zlen in *. destruct (Z.to_nat (declared little d)) eqn:EN; [first [slia|lia]|]. specialize (Q3 ltac:(first [slia|lia])). first [slia|lia].
    + repeat split; [exact Q1|]. exists (f_sched s4). subst t.
      match goal with |- with_tags (with_io (set_created_id (set_header_fields ?q _) ?dd _) _) (table_of ?a) = _ =>
        rewrite (assembled now (mkFile d 0 true false sched) hd dd s4 a) end.
      unfold spec_profile. fold hd.
      replace s4 with (mkFile d (132 + 12 * declared little d) true false (f_sched s4)) at 1.
      * unfold spec_date. reflexivity.
      * rewrite Z2Nat.id in Q2 by slia. rewrite <- Q2, <- G1, <- F1, <- G2, <- F2, <- G3, <- F3. now destruct s4.
  - left. exists Panics. split; [|cbn; auto].
    apply (JOverflow _ _ _ k); [exact L132|exact EMG|exact RD|apply Z.ltb_ge; exact ET|exact Q2| |exact Q5].
    apply readable_index; [exact L132|]. split; [slia|exact Q4].
  - left. exists (Fails UnexpectedEof []). split; [|cbn; auto].
    apply JCutShort; [exact L132|exact EMG|exact RD|apply Z.ltb_ge; exact ET| |unfold zlen in Q2; slia].
    intros X i Hi. apply readable_index in Hi as [Hi1 Hi2]; [|exact L132]. apply Q3; [exact X|slia|exact Hi2].
  - right. repeat split; auto.
Qed.
