(** Remaining lemmas behind the I/O property theorems (C03, C05, C10, C13, C65). *)
From Coq Require Import ZifyBool.
From Verif Require Import M_Base M_Endian M_F64 M_IO M_FileMem M_FileFile M_Durable S_Bytes S_File S_Typed
  P_Bytes P_Endian P_List P_FileMem P_MemProps P_Typed P_FileFile.

#[local] Arguments off_max : simpl never.

(** ** Typed reads on any handler *)
Section AnyHandler.
  Context {S : Type} (e : env) (h : IOHandler S).
  Let b := feat_le e.

  Lemma read_wire n (rd : S -> res Z * S) s :
    rd s = bind (read_array h n s) (fun buf s' => (Ok (adjust_int e n (ne_val e buf)), s')) ->
    match read_array h n s with
    | (Ok buf, s') => length buf = n -> are_bytes buf -> rd s = (Ok (wire_value b buf), s')
    | (Err er, s') => rd s = (Err er, s')
    | (Panic, s') => rd s = (Panic, s')
    end.
  Proof.
    intros ->. destruct (read_array h n s) as [[buf|er|] s']; cbn [bind]; try reflexivity.
    intros <- Hb. now rewrite adjust_ne_val.
  Qed.

  Lemma read_u8_byte s :
    match read_array h 1 s with
    | (Ok buf, s') => length buf = 1%nat -> are_bytes buf -> read_u8 h s = (Ok (wire_value b buf), s')
    | (Err er, s') => read_u8 h s = (Err er, s')
    | (Panic, s') => read_u8 h s = (Panic, s')
    end.
  Proof.
    unfold read_u8. destruct (read_array h 1 s) as [[buf|er|] s']; cbn [bind]; try reflexivity.
    destruct buf as [|x [|? ?]]; try discriminate. intros _ _.
    unfold wire_value. destruct b; cbn; do 2 f_equal; unfold big_value; cbn; lia.
  Qed.
End AnyHandler.

Lemma stream_content e ts d p :
  Forall tval_ok ts -> 0 <= p -> zlen d <= isize_max e -> p + total_size ts <= isize_max e ->
  let '(r, s) := write_ts e (mem_io e) ts (mkMem true d p) in
  let bytes := flat_map (tval_bytes (feat_le e)) ts in
  r = Ok tt /\ mem_pos s = p + total_size ts /\
  (ts = [] \/ total_size ts = 0 -> mem_data s = d) /\
  (0 < total_size ts -> zlen (mem_data s) = Z.max (zlen d) (p + total_size ts)) /\
  forall i, nth i (mem_data s) 0 =
    if (p <=? Z.of_nat i) && (Z.of_nat i <? p + total_size ts)
    then nth (i - Z.to_nat p) bytes 0 else nth i d 0.
Proof.
  intros Hok Hp Hl Hc. pose proof (total_nonneg ts).
  assert (Hwf : mem_wf e (mkMem true d p)).
  { split; cbn; [|assumption]. destruct (isize_max_cases e) as [[E _]|[E _]]; rewrite E in *; lia. }
  rewrite write_ts_mem by (cbn; assumption || reflexivity). cbn [mem_data mem_pos].
  pose proof (enc_all_size (feat_le e) ts) as EZ. unfold enc_all in *.
  set (bs := flat_map _ ts) in *. repeat split.
  - intros H0. assert (zlen bs = 0) by (destruct H0; [subst ts; reflexivity|lia]).
    destruct bs; [reflexivity|]. unfold zlen in *. simpl length in *. lia.
  - intros H0. rewrite put_length; [lia|lia|]. intros ->. change (zlen []) with 0 in EZ. lia.
  - intros i. rewrite nth_put by lia. rewrite EZ. reflexivity.
Qed.

(** ** f32 *)
Lemma f32_transfer ew er bits d p : feat_le er = feat_le ew -> is_uint 4 bits ->
  0 <= p -> zlen d <= isize_max ew -> p + 4 <= isize_max ew ->
  let '(rw, s1) := write_f32 ew (mem_io ew) (f32_of_bits bits) (mkMem true d p) in
  let '(_, s2) := mem_seek s1 (SeekStart p) in
  let '(rr, _) := read_f32 er (mem_io er) s2 in
  rw = Ok tt /\ rr = Ok (f32_of_bits bits) /\ map_res bits_of_f32 rr = Ok bits.
Proof.
  intros Hf Hb Hp Hl Hc.
  pose proof (typed_round_trip ew er [VF32 bits] d p Hf) as H.
  cbn [total_size fold_right tval_size] in H. rewrite Z.add_0_r in H.
  specialize (H (Forall_cons (VF32 bits) (Hb : tval_ok (VF32 bits)) (Forall_nil _)) Hp Hl Hc).
  cbn [write_ts read_ts write_t read_t] in H.
  destruct (write_f32 ew (mem_io ew) (f32_of_bits bits) (mkMem true d p)) as [[[]|?|] s1]; cbn [bind] in H;
    [| destruct (mem_seek s1 (SeekStart p)), (rmap _ _) as [[?|?|] ?]; cbn in H; now destruct H
     | destruct (mem_seek s1 (SeekStart p)), (rmap _ _) as [[?|?|] ?]; cbn in H; now destruct H].
  destruct (mem_seek s1 (SeekStart p)) as [rs s2].
  unfold rmap in H. destruct (read_f32 er (mem_io er) s2) as [[x|?|] s3]; cbn [bind] in H;
    [|now destruct H as (_ & _ & _ & ? & _)|now destruct H as (_ & _ & _ & ? & _)].
  destruct H as (_ & _ & _ & H & _). injection H as H. subst bits.
  split; [reflexivity|]. cbn [map_res]. rewrite f32_of_bits_of. auto.
Qed.

(** ** Durability *)
Lemma sync_ok sched s s' : sync_data sched s = (Ok tt, s') ->
  d_file s' = d_file s /\ d_versions s' = [f_data (d_file s)].
Proof.
  revert s'. induction sched as [|ev r IH]; intros s'; cbn [sync_data].
  - intros [= <-]. auto.
  - destruct ev; try (intros [= <-]; auto; fail); auto.
Qed.

Lemma crash_single s c : d_versions s = [f_data (d_file s)] -> crash_content s c <-> c = f_data (d_file s).
Proof.
  intros E. unfold crash_content. rewrite E. split.
  - intros [(v & [<-|[]] & L) H]. apply (list_ext _ _ 0); [exact L|].
    intros i Hi. destruct (H i Hi) as (v & [<-|[]] & Hv). exact Hv.
  - intros ->. split; [exists (f_data (d_file s)); simpl; auto|].
    intros i _. exists (f_data (d_file s)). simpl. auto.
Qed.

Lemma d_step_file e c s :
  fst (call_on (d_io e) c s) = fst (call_on (file_io e) c (d_file s)) /\
  d_file (snd (call_on (d_io e) c s)) = snd (call_on (file_io e) c (d_file s)) /\
  (forall v, In v (d_versions s) -> In v (d_versions (snd (call_on (d_io e) c s)))).
Proof.
  destruct c as [n|bs|p| |]; unfold call_on.
  - unfold read_array. cbn [io_read d_io file_io].
    destruct (file_read (d_file s) (repeat 0 n)) as [[[u|er|] f] b]; cbn; auto.
  - cbn [io_write d_io file_io].
    destruct (file_write (d_file s) bs) as [r f]; cbn. repeat split. intros; apply in_or_app; auto.
  - cbn [io_seek d_io file_io]. destruct (file_seek (d_file s) p) as [r f]; cbn. auto.
  - cbn. auto.
  - unfold reported_size. cbn [io_tell io_seek d_io file_io]. unfold file_tell. cbn [bind d_file].
    destruct (file_seek (d_file s) (SeekEnd 0)) as [[u|er|] f]; cbn [bind d_file]; [|cbn; auto|cbn; auto].
    destruct (file_seek f (SeekStart (as_usize e (f_pos (d_file s))))) as [[v|er|] g]; cbn; auto.
Qed.

Lemma d_history_file e cs : forall s,
  fst (run_calls (call_on (d_io e)) cs s) = fst (run_calls (call_on (file_io e)) cs (d_file s)) /\
  d_file (snd (run_calls (call_on (d_io e)) cs s)) = snd (run_calls (call_on (file_io e)) cs (d_file s)) /\
  (forall v, In v (d_versions s) -> In v (d_versions (snd (run_calls (call_on (d_io e)) cs s)))).
Proof.
  induction cs as [|c cs IH]; intros s; [cbn; auto|].
  cbn [run_calls]. destruct (d_step_file e c s) as (H1 & H2 & H3).
  destruct (call_on (d_io e) c s) as [x s'], (call_on (file_io e) c (d_file s)) as [y f']. cbn [fst snd] in *.
  subst y f'. destruct (IH s') as (I1 & I2 & I3).
  destruct (run_calls (call_on (d_io e)) cs s') as [xs s''],
           (run_calls (call_on (file_io e)) cs (d_file s')) as [ys f'']. cbn [fst snd] in *. subst ys.
  destruct x; cbn [fst snd]; auto.
Qed.

(** Whatever the client did before a successful [close], only the final content can survive. *)
Lemma close_durable e cs f s' :
  let s := snd (run_calls (call_on (d_io e)) cs (d_open f)) in
  file_close s = (Ok tt, s') ->
  forall c, crash_content s' c <-> c = f_data (snd (run_calls (call_on (file_io e)) cs f)).
Proof.
  intros s Hc c. destruct (d_history_file e cs (d_open f)) as (_ & H2 & _). fold s in H2. cbn [d_open d_file] in H2.
  unfold file_close in Hc. apply sync_ok in Hc as [E1 E2].
  rewrite crash_single by (rewrite E1; exact E2). now rewrite E1, H2.
Qed.

(** Without [close] the content the file had when opened may come back. *)
Lemma no_close_not_durable e cs f :
  crash_content (snd (run_calls (call_on (d_io e)) cs (d_open f))) (f_data f).
Proof.
  destruct (d_history_file e cs (d_open f)) as (_ & _ & H3).
  assert (I : In (f_data f) (d_versions (snd (run_calls (call_on (d_io e)) cs (d_open f))))) by (apply H3; simpl; auto).
  split; eauto.
Qed.

Lemma typed_reads {S} (e : env) (h : IOHandler S) (n : nat) (rd : S -> res Z * S) (s : S) :
  (n, rd) = (1%nat, read_u8 h) \/ (n, rd) = (2%nat, read_u16 e h) \/
  (n, rd) = (4%nat, read_u32 e h) \/ (n, rd) = (8%nat, read_u64 e h) ->
  match read_array h n s with
  | (Ok buf, s') => length buf = n -> are_bytes buf -> rd s = (Ok (wire_value (feat_le e) buf), s')
  | (Err er, s') => rd s = (Err er, s')
  | (Panic, s') => rd s = (Panic, s')
  end.
Proof.
  intros [H|[H|[H|H]]]; injection H as -> ->; [apply read_u8_byte| | |];
    apply read_wire; reflexivity.
Qed.

Lemma rio_det {S} (rd : S -> res Z * S) buf s r1 s1 b1 r2 s2 b2 :
  reads_in_order rd buf s r1 s1 b1 -> reads_in_order rd buf s r2 s2 b2 ->
  r1 = r2 /\ s1 = s2 /\ b1 = b2 /\ length b1 = length buf.
Proof.
  intros H. revert r2 s2 b2. induction H; intros r2 s2 b2 H2; inversion H2; subst; try congruence.
  - auto.
  - match goal with A : rd ?x = _, B : rd ?x = _ |- _ => rewrite A in B; injection B as -> -> end. auto.
  - match goal with A : rd ?x = _, B : rd ?x = _ |- _ => rewrite A in B; injection B as -> end. auto.
  - match goal with A : rd ?x = _, B : rd ?x = _ |- _ => rewrite A in B; injection B as -> -> end.
    match goal with A : reads_in_order rd buf _ r2 s2 _ |- _ => apply IHreads_in_order in A as (-> & -> & -> & L) end.
    simpl. auto.
Qed.

Lemma reported_size_mem_neutral e s :
  0 <= mem_pos s < usize_lim e -> zlen (mem_data s) <= isize_max e ->
  reported_size (mem_io e) s = (Ok (zlen (mem_data s)), s).
Proof.
  intros Hp Hl. rewrite reported_size_mem.
  - rewrite Z.mod_small by exact Hp. now destruct s.
  - split; [|exact Hl]. destruct (usize_lim_cases e) as [E|E]; rewrite E in Hp; lia.
Qed.

Lemma mem_history_from e cs d p :
  Forall call_ok cs -> 0 <= p < 2 ^ 64 -> zlen d <= isize_max e ->
  let '(answers, s) := run_calls (call_on (mem_io e)) cs (mkMem true d p) in
  let '(answers', a) := run_calls (a_call (usize_lim e) (isize_max e) (eof_moves e) (pads_empty e)) cs (a_of d p) in
  answers = answers' /\ growable s = true /\ a_same (a_of (mem_data s) (mem_pos s)) a.
Proof.
  intros Hc Hp Hl.
  destruct (mem_history e cs (mkMem true d p) (a_of d p) Hc) as (H1 & [H2 H3] & _).
  - split; assumption.
  - split; [reflexivity|]. apply a_same_refl.
  - change (a_call (usize_lim e) (isize_max e) (eof_moves e) (pads_empty e)) with (a_mem_call e).
    destruct (run_calls (call_on (mem_io e)) cs (mkMem true d p)), (run_calls (a_mem_call e) cs (a_of d p)).
    cbn [fst snd] in *. auto.
Qed.

(** ** Files, in the form used by the property theorems *)
Lemma file_read_split s buf : f_readable s = true -> 0 <= f_pos s -> no_fail (f_sched s) ->
  let '(r, s', buf') := file_read s buf in
  f_data s' = f_data s /\
  ((buf = [] \/ f_pos s + zlen buf <= zlen (f_data s)) ->
     r = Ok tt /\ f_pos s' = f_pos s + zlen buf /\ length buf' = length buf /\
     forall i, (i < length buf)%nat -> nth i buf' 0 = nth (Z.to_nat (f_pos s) + i) (f_data s) 0) /\
  (~ (buf = [] \/ f_pos s + zlen buf <= zlen (f_data s)) ->
     r = Err UnexpectedEof /\ f_pos s' = Z.max (f_pos s) (zlen (f_data s))).
Proof.
  intros Hr Hp Hn.
  destruct (file_read_gen s buf Hr Hp) as (r & s' & buf' & k & E & E1 & E2 & E3 & E4 & E5 & E6 & E7 & E8 & E9).
  rewrite E.
  assert (B : (length buf = 0%nat) <-> buf = []) by (destruct buf; simpl; split; intros; congruence).
  unfold reads_of in E6. rewrite firstn_length, skipn_length in E6.
  split; [exact E1|]. unfold zlen in *. split.
  - intros H. destruct E9 as [[-> ->]|[(-> & K1 & K2)|(_ & _ & K)]]; [| |contradiction].
    + split; [reflexivity|]. split; [lia|]. subst buf'. rewrite skipn_all, app_nil_r. split.
      * unfold reads_of. rewrite firstn_length, skipn_length. lia.
      * intros i Hi. unfold reads_of. rewrite nth_firstn, nth_skipn by exact Hi. reflexivity.
    + exfalso. destruct H as [H|H]; [subst buf; simpl in *; lia|lia].
  - intros H. destruct E9 as [[-> ->]|[(-> & K1 & K2)|(_ & _ & K)]]; [| |contradiction].
    + exfalso. apply H. rewrite <- B. lia.
    + split; [reflexivity|]. lia.
Qed.

Lemma file_write_split s bs : f_writable s = true -> 0 <= f_pos s -> f_pos s + zlen bs <= off_max ->
  no_fail (f_sched s) ->
  let '(r, s') := file_write s bs in
  r = Ok tt /\ f_pos s' = f_pos s + zlen bs /\
  zlen (f_data s') = (if (length bs =? 0)%nat then zlen (f_data s) else Z.max (zlen (f_data s)) (f_pos s + zlen bs)) /\
  forall i, nth i (f_data s') 0 =
    if (f_pos s <=? Z.of_nat i) && (Z.of_nat i <? f_pos s + zlen bs)
    then nth (i - Z.to_nat (f_pos s)) bs 0 else nth i (f_data s) 0.
Proof.
  intros Hw Hp Hc Hn. pose proof (zlen_nonneg bs).
  destruct (file_write_gen s bs Hw ltac:(lia)) as (r & s' & k & E & E1 & E2 & E3 & E4 & E5 & E6 & E7 & E8).
  rewrite E. destruct E8 as [[-> ->]|(_ & _ & [K|K])]; [|contradiction|lia].
  rewrite firstn_all in E6. split; [reflexivity|]. split; [exact E4|]. rewrite E6. split.
  - destruct bs; [reflexivity|]. now rewrite put_length.
  - intros i. apply nth_put. exact Hp.
Qed.

Lemma file_write_any s bs : f_writable s = true -> 0 <= f_pos s <= off_max ->
  let '(r, s') := file_write s bs in
  exists k, (k <= length bs)%nat /\
    (r = Ok tt /\ k = length bs \/ r = Err OsError /\ (k < length bs)%nat) /\
    f_pos s' = f_pos s + Z.of_nat k /\
    zlen (f_data s') = (if (k =? 0)%nat then zlen (f_data s) else Z.max (zlen (f_data s)) (f_pos s + Z.of_nat k)) /\
    forall i, nth i (f_data s') 0 =
      if (f_pos s <=? Z.of_nat i) && (Z.of_nat i <? f_pos s + Z.of_nat k)
      then nth (i - Z.to_nat (f_pos s)) bs 0 else nth i (f_data s) 0.
Proof.
  intros Hw Hp.
  destruct (file_write_gen s bs Hw Hp) as (r & s' & k & E & E1 & E2 & E3 & E4 & E5 & E6 & E7 & E8).
  rewrite E. exists k. split; [exact E3|]. split.
  { destruct E8 as [[-> ->]|(-> & K & _)]; auto. }
  split; [exact E4|]. rewrite E6.
  assert (L : zlen (firstn k bs) = Z.of_nat k) by (unfold zlen; rewrite firstn_length; lia).
  split.
  - destruct k; [reflexivity|]. cbn [Nat.eqb]. rewrite put_length, L by (try lia; intros X; rewrite X in L; discriminate).
    reflexivity.
  - intros i. rewrite nth_put, L by lia.
    destruct ((f_pos s <=? Z.of_nat i) && (Z.of_nat i <? f_pos s + Z.of_nat k)) eqn:C; [|reflexivity].
    apply nth_firstn. lia.
Qed.

Lemma file_read_any s buf : 0 <= f_pos s ->
  let '(r, s', buf') := file_read s buf in f_data s' = f_data s /\ r <> Panic /\ length buf' = length buf.
Proof.
  intros Hp. pose proof (file_read_fuel s buf Hp) as F. destruct (f_readable s) eqn:Hr.
  - destruct (file_read_gen s buf Hr Hp) as (r & s' & buf' & k & E & E1 & E2 & E3 & E4 & E5 & E6 & E7 & _).
    rewrite E in *. cbn in F. repeat split; auto. subst buf'. rewrite app_length, E6, skipn_length. lia.
  - unfold file_read in *. destruct buf as [|x b].
    + destruct (length (f_sched s) + length (@nil Z) + 1)%nat; cbn; repeat split; discriminate.
    + rewrite Nat.add_1_r. cbn [read_exact_loop]. unfold sys_read. rewrite Hr. cbn. repeat split; discriminate.
Qed.

Lemma file_mem_interchange e cs d p sched :
  is64 e = true -> Forall call_ok cs -> Forall (plain_write e) cs -> 0 <= p <= off_max -> zlen d <= off_max ->
  let '(answers, f) := run_calls (call_on (file_io e)) cs (mkFile d p true true sched) in
  let '(answers', m) := run_calls (call_on (mem_io e)) cs (mkMem true d p) in
  (forall x, In x answers -> exists a, x = Ok a) ->
  answers' = answers /\ mem_data m = f_data f /\ mem_pos m = f_pos f.
Proof.
  intros H64 Hc Hpl Hp Hl.
  pose proof (file_sim_history e cs H64 (mkFile d p true true sched) (mkMem true d p)) as H.
  destruct (run_calls (call_on (file_io e)) cs (mkFile d p true true sched)) as [xs f],
           (run_calls (call_on (mem_io e)) cs (mkMem true d p)) as [ys m]. cbn [fst snd] in H.
  intros Hok. destruct H as [H1 (_ & H2 & H3)]; auto.
  - repeat split; cbn; auto; lia.
  - repeat split.
  - apply Forall_forall. exact Hok.
Qed.

(** When closing fails. *)
Definition sync_refused (sched : list os_event) : Prop := exists n rest, sched = repeat EvIntr n ++ EvFail :: rest.
Lemma sync_cases sched s : (sync_refused sched -> sync_data sched s = (Err OsError, s)) /\
  (~ sync_refused sched -> fst (sync_data sched s) = Ok tt /\ d_file (snd (sync_data sched s)) = d_file s).
Proof.
  induction sched as [|ev r IH].
  - split; [|now intros _]. intros (n & rest & E). destruct n; discriminate.
  - destruct ev; cbn [sync_data].
    + split; [|now intros _]. intros (n & rest & E). destruct n; discriminate.
    + split; [|now intros _]. intros (n' & rest & E). destruct n'; discriminate.
    + destruct IH as (A & B). split.
      * intros (n & rest & E). destruct n as [|n]; [discriminate|]. injection E as E. apply A. now exists n, rest.
      * intros N. apply B. intros (n & rest & ->). apply N. now exists (S n), rest.
    + split; [reflexivity|]. intros N. exfalso. apply N. now exists O, r.
Qed.
Lemma close_cases s : (sync_refused (f_sched (d_file s)) -> file_close s = (Err OsError, s)) /\
  (~ sync_refused (f_sched (d_file s)) -> fst (file_close s) = Ok tt /\ d_file (snd (file_close s)) = d_file s).
Proof. apply sync_cases. Qed.
