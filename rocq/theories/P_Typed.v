(** Typed transfers. *)
From Coq Require Import ZifyBool.
From Flocq Require Import IEEE754.Bits.
From Verif Require Import M_Base M_Endian M_F64 M_IO M_FileMem M_FileFile
  S_Bytes S_File S_Typed P_Bytes P_Endian P_List P_FileMem.

(** ** f32 bit patterns *)
Lemma f32_bits_bits b : is_uint 4 b -> bits_of_f32 (f32_of_bits b) = b.
Proof. intros H. apply (bits_of_binary_float_of_bits 23 8 eq_refl eq_refl eq_refl). exact H. Qed.
Lemma f32_of_bits_of x : f32_of_bits (bits_of_f32 x) = x.
Proof. apply (binary_float_of_bits_of_binary_float 23 8 eq_refl eq_refl eq_refl). Qed.
Lemma bits_of_f32_uint x : is_uint 4 (bits_of_f32 x).
Proof. apply (bits_of_binary_float_range 23 8 eq_refl eq_refl). Qed.

(** ** What the default methods hand to the handler *)
Section AnyHandler.
  Context {S : Type} (e : env) (h : IOHandler S).
  Let b := feat_le e.

  Lemma write_u8_bytes v s : write_u8 h v s = io_write h s [v].
  Proof. reflexivity. Qed.
  Lemma write_u16_bytes v s : write_u16 e h v s = io_write h s (wire_enc b 2 v).
  Proof. unfold write_u16. now rewrite ne_adjust. Qed.
  Lemma write_u32_bytes v s : write_u32 e h v s = io_write h s (wire_enc b 4 v).
  Proof. unfold write_u32. now rewrite ne_adjust. Qed.
  Lemma write_u64_bytes v s : write_u64 e h v s = io_write h s (wire_enc b 8 v).
  Proof. unfold write_u64. now rewrite ne_adjust. Qed.
  Lemma write_f32_bytes x s : write_f32 e h x s = io_write h s (wire_enc b 4 (bits_of_f32 x)).
  Proof. apply write_u32_bytes. Qed.
  Lemma write_s15f16_bytes x s :
    write_s15f16 e h x s = io_write h s (wire_enc b 4 (f64_to_s15f16 x mod 2 ^ 32)).
  Proof. apply write_u32_bytes. Qed.

  Lemma write_u16_array_in_order vs : forall s,
    let '(r, s') := write_u16_array e h vs s in writes_in_order (write_u16 e h) vs s r s'.
  Proof.
    induction vs as [|v vs IH]; intros s; cbn [write_u16_array]; [constructor|].
    destruct (write_u16 e h v s) as [[[]|er|] s1] eqn:E; cbn [bind].
    - specialize (IH s1). destruct (write_u16_array e h vs s1). econstructor; eassumption.
    - eapply wio_stop; [eassumption|discriminate].
    - eapply wio_stop; [eassumption|discriminate].
  Qed.

  Lemma read_u16_array_in_order buf : forall s,
    let '(r, s', buf') := read_u16_array e h buf s in reads_in_order (read_u16 e h) buf s r s' buf'.
  Proof.
    induction buf as [|x buf IH]; intros s; cbn [read_u16_array]; [constructor|].
    destruct (read_u16 e h s) as [[v|er|] s1] eqn:E.
    - specialize (IH s1). destruct (read_u16_array e h buf s1) as [[r s'] buf']. econstructor; eassumption.
    - now constructor.
    - now constructor.
  Qed.

End AnyHandler.

(** ** On a growable memory file *)
Definition put (d : list Z) (p : Z) (bs : list Z) : list Z :=
  match bs with [] => d | _ => store_at d p bs end.

Lemma put_length d p bs : 0 <= p -> bs <> [] -> zlen (put d p bs) = Z.max (zlen d) (p + zlen bs).
Proof. intros. destruct bs; [easy|]. now apply store_at_length. Qed.

Lemma nth_put d p bs i : 0 <= p ->
  nth i (put d p bs) 0 =
  if (p <=? Z.of_nat i) && (Z.of_nat i <? p + zlen bs) then nth (i - Z.to_nat p) bs 0 else nth i d 0.
Proof.
  intros. destruct bs.
  - cbn [put]. replace ((p <=? Z.of_nat i) && (Z.of_nat i <? p + zlen [])) with false; [reflexivity|].
    change (zlen []) with 0. lia.
  - now apply nth_store_at.
Qed.

Lemma zlen_app a b : zlen (a ++ b) = zlen a + zlen b.
Proof. unfold zlen. rewrite app_length. lia. Qed.

Lemma put_put d p a b : 0 <= p -> put (put d p a) (p + zlen a) b = put d p (a ++ b).
Proof.
  intros Hp. destruct a as [|x a'].
  - change (zlen []) with 0. now rewrite Z.add_0_r.
  - destruct b as [|y b']; [now rewrite app_nil_r|].
    set (a := x :: a'). set (b := y :: b').
    assert (La : 0 < zlen a) by (unfold zlen, a; simpl length; lia).
    assert (Lb : 0 < zlen b) by (unfold zlen, b; simpl length; lia).
    assert (Hab : a ++ b <> []) by easy.
    apply (list_ext _ _ 0).
    + apply Nat2Z.inj. fold (zlen (put (put d p a) (p + zlen a) b)) (zlen (put d p (a ++ b))).
      rewrite !put_length, zlen_app by (try easy; lia). lia.
    + intros i _. rewrite !nth_put, zlen_app by lia.
      destruct ((p + zlen a <=? Z.of_nat i) && (Z.of_nat i <? p + zlen a + zlen b)) eqn:E1;
      destruct ((p <=? Z.of_nat i) && (Z.of_nat i <? p + (zlen a + zlen b))) eqn:E2;
      destruct ((p <=? Z.of_nat i) && (Z.of_nat i <? p + zlen a)) eqn:E3; try lia; try reflexivity.
      * rewrite app_nth2 by (unfold zlen in *; lia). f_equal. unfold zlen in *. lia.
      * rewrite app_nth1 by (unfold zlen in *; lia). reflexivity.
Qed.

Lemma skipn_put d p bs : 0 <= p -> exists rest, skipn (Z.to_nat p) (put d p bs) = bs ++ rest.
Proof.
  intros Hp. destruct bs as [|x bs']; [eexists; reflexivity|]. cbn [put].
  rewrite store_at_splice. unfold splice.
  rewrite skipn_app, skipn_all2 by (rewrite firstn_length; lia).
  pose proof (padded_len d p Hp).
  replace (Z.to_nat p - length (firstn (Z.to_nat p) (d ++ repeat 0%Z (Z.to_nat (p - zlen d)))))%nat with 0%nat
    by (rewrite firstn_length; lia).
  eexists. reflexivity.
Qed.

Definition enc_all (little : bool) (ts : list tval) : list Z := flat_map (tval_bytes little) ts.

Lemma tval_bytes_size b t : zlen (tval_bytes b t) = tval_size t.
Proof.
  unfold zlen. destruct t; cbn [tval_bytes tval_size]; rewrite ?wire_enc_length; try reflexivity.
  induction vs as [|v vs IH]; [reflexivity|].
  cbn [flat_map]. rewrite app_length, wire_enc_length. simpl length. lia.
Qed.
Lemma enc_all_size b ts : zlen (enc_all b ts) = total_size ts.
Proof.
  induction ts as [|t ts IH]; [reflexivity|]. unfold enc_all in *. cbn [flat_map total_size fold_right].
  rewrite zlen_app, tval_bytes_size, IH. reflexivity.
Qed.
Lemma total_nonneg ts : 0 <= total_size ts.
Proof. rewrite <- (enc_all_size false). apply zlen_nonneg. Qed.

(** Writing bytes within the limits. *)
Lemma mem_write_put e s bs : bs <> [] \/ pads_empty e = false -> growable s = true -> mem_wf e s -> mem_pos s + zlen bs <= isize_max e ->
  mem_write e s bs = (Ok tt, mkMem true (put (mem_data s) (mem_pos s) bs) (mem_pos s + zlen bs)).
Proof.
  intros Hb G [Hp Hl] Hc. destruct bs as [|x bs'].
  - destruct Hb as [Hb|Hb]; [easy|]. rewrite mem_write_nil by (rewrite Hb; apply andb_false_r). change (zlen []) with 0. rewrite Z.add_0_r. destruct s; simpl in *. now subst.
  - rewrite mem_write_vec by (try exact G; left; easy).
    assert (0 < zlen (x :: bs')) by (unfold zlen; simpl length; lia).
    destruct (isize_max_cases e) as [[E1 E2]|[E1 E2]]; rewrite E1 in *; rewrite E2 in *.
    + replace (2 ^ 32 <=? mem_pos s) with false by lia.
      replace (2 ^ 31 - 1 <? mem_pos s + zlen (x :: bs')) with false by lia. reflexivity.
    + replace (2 ^ 64 <=? mem_pos s) with false by lia.
      replace (2 ^ 63 - 1 <? mem_pos s + zlen (x :: bs')) with false by lia. reflexivity.
Qed.

Lemma mem_wf_put e s bs : growable s = true -> mem_wf e s -> mem_pos s + zlen bs <= isize_max e ->
  mem_wf e (mkMem true (put (mem_data s) (mem_pos s) bs) (mem_pos s + zlen bs)).
Proof.
  intros G [Hp Hl] Hc. pose proof (zlen_nonneg bs). split; cbn [mem_data mem_pos].
  - destruct (isize_max_cases e) as [[E1 E2]|[E1 E2]]; rewrite E1 in *; lia.
  - destruct bs; [exact Hl|]. rewrite put_length by (try lia; easy). lia.
Qed.

Lemma wire_enc_some b n v : n <> 0%nat -> wire_enc b n v <> [].
Proof. intros N Q. apply N. rewrite <- (wire_enc_length b n v), Q. reflexivity. Qed.

Lemma write_array_mem e vs : forall s, growable s = true -> mem_wf e s ->
  mem_pos s + 2 * Z.of_nat (length vs) <= isize_max e ->
  write_u16_array e (mem_io e) vs s =
  (Ok tt, mkMem true (put (mem_data s) (mem_pos s) (flat_map (wire_enc (feat_le e) 2) vs))
                (mem_pos s + 2 * Z.of_nat (length vs))).
Proof.
  induction vs as [|v vs IH]; intros s G Hwf Hc.
  - cbn [write_u16_array flat_map put]. simpl length. rewrite Z.add_0_r. destruct s; simpl in *. now subst.
  - cbn [write_u16_array flat_map]. rewrite write_u16_bytes. cbn [io_write mem_io].
    assert (L2 : zlen (wire_enc (feat_le e) 2 v) = 2) by (unfold zlen; now rewrite wire_enc_length).
    rewrite mem_write_put by (try assumption; try (left; intros Q; rewrite Q in L2; discriminate); simpl length in *; lia). cbn [bind].
    rewrite IH; cbn [mem_data mem_pos].
    + rewrite put_put by (destruct Hwf; lia). do 2 f_equal. rewrite L2. simpl length. lia.
    + reflexivity.
    + apply mem_wf_put; try assumption. simpl length in *. lia.
    + simpl length in *. lia.
Qed.

Lemma write_t_mem e t s : tval_ok t -> growable s = true -> mem_wf e s ->
  mem_pos s + tval_size t <= isize_max e ->
  write_t e (mem_io e) t s =
  (Ok tt, mkMem true (put (mem_data s) (mem_pos s) (tval_bytes (feat_le e) t)) (mem_pos s + tval_size t)).
Proof.
  intros Hok G Hwf Hc. rewrite <- (tval_bytes_size (feat_le e)) in Hc |- *.
  destruct t; cbn [write_t tval_bytes tval_ok] in *.
  - rewrite write_u8_bytes. apply mem_write_put; try assumption. left. discriminate.
  - rewrite write_u16_bytes. apply mem_write_put; try assumption. left. apply wire_enc_some. discriminate.
  - pose proof (tval_bytes_size (feat_le e) (VU16s vs)) as E. cbn [tval_bytes tval_size] in E.
    rewrite E in *. now apply write_array_mem.
  - rewrite write_u32_bytes. apply mem_write_put; try assumption. left. apply wire_enc_some. discriminate.
  - rewrite write_f32_bytes, f32_bits_bits by assumption. apply mem_write_put; try assumption. left. apply wire_enc_some. discriminate.
  - rewrite write_u64_bytes. apply mem_write_put; try assumption. left. apply wire_enc_some. discriminate.
Qed.

Lemma write_ts_mem e ts : forall s, Forall tval_ok ts -> growable s = true -> mem_wf e s ->
  mem_pos s + total_size ts <= isize_max e ->
  write_ts e (mem_io e) ts s =
  (Ok tt, mkMem true (put (mem_data s) (mem_pos s) (enc_all (feat_le e) ts)) (mem_pos s + total_size ts)).
Proof.
  induction ts as [|t ts IH]; intros s Hok G Hwf Hc.
  - cbn [write_ts total_size fold_right enc_all flat_map put]. rewrite Z.add_0_r.
    destruct s; simpl in *. now subst.
  - inversion Hok; subst. cbn [write_ts]. pose proof (total_nonneg ts).
    change (total_size (t :: ts)) with (tval_size t + total_size ts) in *.
    rewrite write_t_mem by (try assumption; lia). cbn [bind].
    rewrite <- (tval_bytes_size (feat_le e) t) in Hc |- *.
    rewrite IH; cbn [mem_data mem_pos]; try assumption; try reflexivity.
    + rewrite put_put by (destruct Hwf; lia). do 2 f_equal. lia.
    + apply mem_wf_put; try assumption. lia.
    + lia.
Qed.

(** Reading back. *)
Definition at_bytes (s : FileMem) (bs rest : list Z) : Prop :=
  0 <= mem_pos s /\ skipn (Z.to_nat (mem_pos s)) (mem_data s) = bs ++ rest.
Definition advance (s : FileMem) (n : Z) : FileMem := mkMem (growable s) (mem_data s) (mem_pos s + n).

Lemma advance_0 s : advance s 0 = s.
Proof. unfold advance. rewrite Z.add_0_r. now destruct s. Qed.
Lemma advance_add s m n : advance (advance s m) n = advance s (m + n).
Proof. unfold advance. cbn. f_equal. lia. Qed.

Lemma at_bytes_advance s a b rest : at_bytes s (a ++ b) rest -> at_bytes (advance s (zlen a)) b rest.
Proof.
  intros [Hp H]. split; cbn [advance mem_pos mem_data]; [pose proof (zlen_nonneg a); lia|].
  replace (Z.to_nat (mem_pos s + zlen a)) with (Z.to_nat (mem_pos s) + length a)%nat by (unfold zlen; lia).
  rewrite <- skipn_add, H. rewrite <- app_assoc, skipn_app, skipn_all2, Nat.sub_diag by lia. reflexivity.
Qed.
Lemma at_bytes_prefix s a b rest : at_bytes s (a ++ b) rest -> at_bytes s a (b ++ rest).
Proof. intros [Hp H]. split; [exact Hp|]. now rewrite app_assoc. Qed.

Lemma read_array_at e s bs rest : at_bytes s bs rest ->
  read_array (mem_io e) (length bs) s = (Ok bs, advance s (zlen bs)).
Proof.
  intros [Hp H]. rewrite read_array_mem by exact Hp.
  assert (L : length (skipn (Z.to_nat (mem_pos s)) (mem_data s)) = (length bs + length rest)%nat)
    by now rewrite H, app_length.
  rewrite skipn_length in L.
  replace ((length bs =? 0)%nat || (mem_pos s + Z.of_nat (length bs) <=? zlen (mem_data s))) with true
    by (unfold zlen; lia).
  rewrite H, firstn_app, firstn_all, Nat.sub_diag, firstn_O, app_nil_r. reflexivity.
Qed.

Lemma read_wire_at e n v s rest : is_uint n v -> at_bytes s (wire_enc (feat_le e) n v) rest ->
  bind (read_array (mem_io e) n s) (fun buf s' => (Ok (adjust_int e n (ne_val e buf)), s'))
  = (Ok v, advance s (Z.of_nat n)).
Proof.
  intros Hv H. apply (read_array_at e) in H. rewrite wire_enc_length in H. rewrite H. cbn [bind].
  rewrite <- (wire_enc_length (feat_le e) n v) at 1.
  rewrite adjust_ne_val by apply wire_enc_bytes. rewrite wire_value_enc by assumption.
  unfold zlen. now rewrite wire_enc_length.
Qed.

Lemma read_u16_at e v s rest : is_uint 2 v -> at_bytes s (wire_enc (feat_le e) 2 v) rest ->
  read_u16 e (mem_io e) s = (Ok v, advance s 2).
Proof. apply (read_wire_at e 2). Qed.

Lemma read_array_u16_at e vs : forall s rest, Forall (is_uint 2) vs ->
  at_bytes s (flat_map (wire_enc (feat_le e) 2) vs) rest ->
  read_u16_array e (mem_io e) (repeat 0 (length vs)) s =
  (Ok tt, advance s (2 * Z.of_nat (length vs)), vs).
Proof.
  induction vs as [|v vs IH]; intros s rest Hv H.
  - simpl. now rewrite advance_0.
  - inversion Hv; subst. cbn [flat_map length repeat read_u16_array] in *.
    rewrite (read_u16_at e v s (flat_map (wire_enc (feat_le e) 2) vs ++ rest))
      by (try assumption; now apply at_bytes_prefix).
    apply at_bytes_advance in H. unfold zlen in H. rewrite wire_enc_length in H.
    rewrite (IH _ rest) by assumption. rewrite advance_add. do 3 f_equal. lia.
Qed.

Lemma read_t_at e t s rest : tval_ok t -> at_bytes s (tval_bytes (feat_le e) t) rest ->
  read_t e (mem_io e) t s = (Ok t, advance s (tval_size t)).
Proof.
  intros Hok H. destruct t; cbn [read_t tval_bytes tval_ok tval_size] in *; unfold rmap.
  - unfold read_u8. apply (read_array_at e) in H. simpl length in H. rewrite H. reflexivity.
  - rewrite (read_u16_at e v s rest) by assumption. reflexivity.
  - now rewrite (read_array_u16_at e vs s rest) by assumption.
  - unfold read_u32. rewrite (read_wire_at e 4 v s rest) by assumption. reflexivity.
  - unfold read_f32, read_u32. rewrite (read_wire_at e 4 bits s rest) by assumption. cbn [bind].
    now rewrite f32_bits_bits.
  - unfold read_u64. rewrite (read_wire_at e 8 v s rest) by assumption. reflexivity.
Qed.

Lemma read_ts_at e ts : forall s rest, Forall tval_ok ts -> at_bytes s (enc_all (feat_le e) ts) rest ->
  read_ts e (mem_io e) ts s = (Ok ts, advance s (total_size ts)).
Proof.
  induction ts as [|t ts IH]; intros s rest Hok H.
  - simpl. now rewrite advance_0.
  - inversion Hok; subst. unfold enc_all in *. cbn [flat_map read_ts] in *.
    rewrite (read_t_at e t s (flat_map (tval_bytes (feat_le e)) ts ++ rest))
      by (try assumption; now apply at_bytes_prefix).
    cbn [bind]. apply at_bytes_advance in H. rewrite tval_bytes_size in H.
    rewrite (IH _ rest) by assumption. cbn [bind]. rewrite advance_add. reflexivity.
Qed.

(** The round trip, possibly between two hosts. *)
Lemma typed_round_trip ew er ts d p :
  feat_le er = feat_le ew ->
  Forall tval_ok ts -> 0 <= p -> zlen d <= isize_max ew -> p + total_size ts <= isize_max ew ->
  let '(rw, s1) := write_ts ew (mem_io ew) ts (mkMem true d p) in
  let '(rs, s2) := mem_seek s1 (SeekStart p) in
  let '(rr, s3) := read_ts er (mem_io er) ts s2 in
  rw = Ok tt /\ fst (mem_tell ew s1) = Ok (p + total_size ts) /\
  rs = Ok tt /\ rr = Ok ts /\ s3 = s1.
Proof.
  intros Hf Hok Hp Hl Hc. pose proof (total_nonneg ts).
  assert (Hwf : mem_wf ew (mkMem true d p)).
  { split; cbn; [|assumption]. destruct (isize_max_cases ew) as [[E _]|[E _]]; rewrite E in *; lia. }
  rewrite write_ts_mem by (cbn; assumption || reflexivity). cbn [mem_data mem_pos mem_seek growable].
  destruct (skipn_put d p (enc_all (feat_le ew) ts) Hp) as [rest E].
  rewrite (read_ts_at er ts _ rest).
  - repeat split.
    cbn [mem_tell fst mem_pos]. unfold as_usize. rewrite Z.mod_small; [reflexivity|].
    destruct (isize_max_cases ew) as [[E1 E2]|[E1 E2]]; rewrite E2, E1 in *; lia.
  - assumption.
  - rewrite Hf. split; [exact Hp | exact E].
Qed.
