(** Files of the operating system and fixed buffers as abstract files (C98). *)
From Coq Require Import ZifyBool.
From Verif Require Import M_Base M_IO M_FileMem M_FileFile S_Bytes S_File S_Typed S_Disk
  P_List P_FileMem P_MemProps P_Typed P_FileFile.

#[local] Arguments off_max : simpl never.

(** The abstract file shown by a content and a position. *)
Definition shown (d : list Z) (p : Z) (a : afile) : Prop := a_same (a_of d p) a.

Lemma shown_len d p a : shown d p a -> a_len a = zlen d /\ a_pos a = p.
Proof. intros (L & P & _). cbn in L, P. unfold zlen. auto. Qed.
Lemma shown_move d p a q : shown d p a -> shown d q (a_move a q).
Proof. exact (a_move_same _ _ q). Qed.
Lemma shown_put d p a bs : 0 <= p -> bs <> [] -> shown d p a ->
  shown (put d p bs) (p + zlen bs) (a_store a bs).
Proof.
  intros Hp Hb H. destruct bs as [|x bs']; [easy|]. cbn [put].
  eapply a_same_trans; [apply a_of_store; easy|]. now apply a_store_same.
Qed.
Lemma shown_range d p a n : 0 <= p -> p + Z.of_nat n <= zlen d -> shown d p a ->
  a_range a p n = firstn n (skipn (Z.to_nat p) d).
Proof. intros Hp Hn H. rewrite <- (a_range_same _ _ n H). now apply a_range_of. Qed.
Lemma shown_self d p a q : shown d p a -> p = q -> shown d q a.
Proof. now intros H <-. Qed.
Lemma shown_stay d p a : shown d p a -> shown d p (a_move a p).
Proof. apply shown_move. Qed.

(** ** A file on disk *)
Record disk_ok (rd wr : bool) (f : File) : Prop := mkDisk {
  dk_rd : f_readable f = rd;
  dk_wr : f_writable f = wr;
  dk_pos : 0 <= f_pos f <= off_max;
  dk_len : zlen (f_data f) <= off_max;
  dk_sched : no_fail (f_sched f)
}.

Lemma read_denied f buf : f_readable f = false -> buf <> [] ->
  exists f', file_read f buf = (Err OsError, f', buf) /\ f_data f' = f_data f /\ f_pos f' = f_pos f /\
    f_readable f' = false /\ f_writable f' = f_writable f /\ (no_fail (f_sched f) -> no_fail (f_sched f')).
Proof.
  intros Hr Hb. destruct buf as [|x b]; [easy|]. eexists. unfold file_read. rewrite Nat.add_1_r.
  cbn [read_exact_loop]. unfold sys_read. rewrite Hr. cbn [negb app]. split; [reflexivity|].
  cbn. repeat split. apply no_fail_tail.
Qed.

Lemma write_denied f buf : f_writable f = false -> buf <> [] ->
  exists f', file_write f buf = (Err OsError, f') /\ f_data f' = f_data f /\ f_pos f' = f_pos f /\
    f_readable f' = f_readable f /\ f_writable f' = false /\ (no_fail (f_sched f) -> no_fail (f_sched f')).
Proof.
  intros Hr Hb. destruct buf as [|x b]; [easy|]. eexists. unfold file_write. rewrite Nat.add_1_r.
  cbn [file_write_loop]. unfold sys_write. rewrite Hr. cbn [negb]. split; [reflexivity|].
  cbn. repeat split. apply no_fail_tail.
Qed.

Lemma read_nothing f : file_read f [] = (Ok tt, f, []).
Proof. unfold file_read. rewrite Nat.add_1_r. reflexivity. Qed.
Lemma write_nothing f : file_write f [] = (Ok tt, f).
Proof. unfold file_write. rewrite Nat.add_1_r. reflexivity. Qed.

Lemma size_on_disk e s : 0 <= f_pos s <= off_max -> zlen (f_data s) <= off_max ->
  reported_size (file_io e) s =
  (Ok (zlen (f_data s) mod usize_lim e),
   mkFile (f_data s) (f_pos s mod usize_lim e) (f_readable s) (f_writable s) (f_sched s)).
Proof.
  intros Hp Hl. pose proof (zlen_nonneg (f_data s)).
  unfold reported_size. cbn [io_tell io_seek file_io]. unfold file_tell, bind at 1.
  unfold file_seek at 1. rewrite Z.add_0_r.
  replace (zlen (f_data s) <? 0) with false by lia.
  replace (off_max <? zlen (f_data s)) with false by lia.
  cbn [bind file_seek f_pos f_data f_readable f_writable f_sched]. unfold as_usize.
  replace (off_max <? f_pos s mod usize_lim e) with false; [reflexivity|].
  pose proof (Z.mod_le (f_pos s) (usize_lim e)).
  destruct (usize_lim_cases e) as [E|E]; rewrite E in *; lia.
Qed.

Lemma disk_step e rd wr c f a : call_ok c -> disk_ok rd wr f -> shown (f_data f) (f_pos f) a ->
  let f' := snd (call_on (file_io e) c f) in
  fst (call_on (file_io e) c f) = fst (a_disk_call (usize_lim e) rd wr c a) /\
  shown (f_data f') (f_pos f') (snd (a_disk_call (usize_lim e) rd wr c a)) /\
  disk_ok rd wr f'.
Proof.
  intros Hc Hk HS. pose proof Hk as [Hr Hw Hp Hl Hn]. destruct (shown_len _ _ _ HS) as [EL EP].
  pose proof (zlen_nonneg (f_data f)) as Hz.
  destruct c as [n|bs|p| |]; cbn [call_on a_disk_call]; change 9223372036854775807 with off_max.
  - unfold read_array. cbn [io_read file_io]. unfold a_read. rewrite EL, EP.
    destruct (Nat.eqb_spec n 0) as [->|N0].
    { cbn [repeat]. rewrite read_nothing. rewrite andb_false_r. cbn. auto. }
    cbn [negb]. rewrite andb_true_r. destruct rd; cbn [negb].
    + destruct (file_read_gen f (repeat 0 n) Hr (proj1 Hp)) as
        (r & f' & buf & k & E & E1 & E2 & E3 & E4 & E5 & E6 & E7 & E8 & E9).
      rewrite E. rewrite repeat_length in *.
      assert (D : forall m, shown (f_data f) (f_pos f + Z.of_nat k) m -> shown (f_data f') (f_pos f') m)
        by (intros m; rewrite E1, E4; auto).
      unfold reads_of in E6. rewrite firstn_length, skipn_length in E6. unfold zlen in *.
      destruct E9 as [[-> Ek]|[(-> & Ek & Eq)|(-> & _ & Bad)]]; [| |now destruct Bad].
      * subst k. replace (f_pos f + Z.of_nat n <=? Z.of_nat (length (f_data f))) with true by lia.
        cbn [fst snd map_res]. split; [|split].
        -- do 2 f_equal. rewrite E7, (skipn_all2 (repeat 0 n)) by (rewrite repeat_length; lia).
           rewrite app_nil_r. symmetry. unfold reads_of. apply shown_range; [lia|unfold zlen; lia|exact HS].
        -- apply D. now apply (shown_move _ (f_pos f)).
        -- constructor; auto; try congruence; rewrite ?E1, ?E4; unfold zlen; lia.
      * replace (f_pos f + Z.of_nat n <=? Z.of_nat (length (f_data f))) with false by lia.
        cbn [fst snd map_res]. split; [reflexivity|]. split.
        -- apply D. replace (f_pos f + Z.of_nat k) with (Z.max (f_pos f) (Z.of_nat (length (f_data f)))) by lia.
           now apply (shown_move _ (f_pos f)).
        -- constructor; auto; try congruence; rewrite ?E1, ?E4; unfold zlen; lia.
    + destruct (read_denied f (repeat 0 n) Hr) as (f' & E & E1 & E2 & E3 & E4 & E5).
      { destruct n; [easy|discriminate]. }
      rewrite E. cbn [fst snd map_res]. split; [reflexivity|]. rewrite E1, E2. split; [exact HS|].
      constructor; auto; try congruence; rewrite ?E1, ?E2; auto.
  - cbn [io_write file_io]. unfold a_write. rewrite EP.
    destruct (Nat.eqb_spec (length bs) 0) as [N0|N0].
    { destruct bs; [|discriminate]. rewrite write_nothing. rewrite andb_false_r. cbn. auto. }
    cbn [negb]. rewrite andb_true_r.
    assert (Nb : bs <> []) by now intros ->.
    destruct wr; cbn [negb].
    + destruct (file_write_gen f bs Hw Hp) as (r & f' & k & E & E1 & E2 & E3 & E4 & E5 & E6 & E7 & E8).
      rewrite E. unfold zlen in *.
      destruct E8 as [[-> ->]|(-> & Ek & [Bad|[Eo Ef]])]; [|now destruct Bad|].
      * replace (f_pos f + Z.of_nat (length bs) <=? off_max) with true by lia. cbn [fst snd map_res].
        split; [reflexivity|]. rewrite firstn_all in E6. split.
        -- rewrite E4, E6. apply shown_put; [lia|exact Nb|exact HS].
        -- constructor; auto; try congruence; [lia|]. rewrite E6, put_length by (try easy; lia). unfold zlen; lia.
      * replace (f_pos f + Z.of_nat (length bs) <=? off_max) with false by lia. cbn [fst snd map_res].
        split; [reflexivity|]. assert (Kv : Z.to_nat (off_max - f_pos f) = k) by lia. rewrite Kv.
        destruct (Z.leb_spec off_max (f_pos f)) as [Hlim|Hlim].
        -- assert (K0 : k = 0%nat) by lia. rewrite K0 in E6. cbn [firstn put] in E6. split.
           ++ rewrite E6. apply (shown_self _ (f_pos f)); [exact HS|lia].
           ++ constructor; auto; try congruence; [lia|]. rewrite E6. exact Hl.
        -- assert (Nk : firstn k bs <> []).
           { destruct k; [lia|]. destruct bs; [easy|discriminate]. }
           assert (Lk : zlen (firstn k bs) = Z.of_nat k) by (unfold zlen; rewrite firstn_length; lia).
           split.
           ++ rewrite E4, E6, <- Lk. apply shown_put; [lia|exact Nk|exact HS].
           ++ constructor; auto; try congruence; [lia|].
              rewrite E6, put_length by (try easy; lia). unfold zlen in *. lia.
    + destruct (write_denied f bs Hw Nb) as (f' & E & E1 & E2 & E3 & E4 & E5).
      rewrite E. cbn [fst snd map_res]. split; [reflexivity|]. rewrite E1, E2. split; [exact HS|].
      constructor; auto; try congruence; rewrite ?E1, ?E2; auto.
  - cbn [io_seek file_io]. unfold file_seek, a_target. rewrite EL, EP.
    assert (M : forall q, 0 <= q <= off_max ->
      shown (f_data f) q (a_move a q) /\ disk_ok rd wr (mkFile (f_data f) q (f_readable f) (f_writable f) (f_sched f))).
    { intros q Hq. split; [now apply (shown_move _ (f_pos f))|]. now constructor. }
    destruct p as [n|n|n]; cbn [call_ok] in Hc.
    + replace (n <? 0) with false by lia.
      destruct (Z.ltb_spec off_max n); destruct (Z.leb_spec n off_max); try lia; cbn [fst snd map_res].
      * auto.
      * split; [reflexivity|]. apply M. lia.
    + destruct (Z.ltb_spec (zlen (f_data f) + n) 0); cbn [fst snd map_res]; [auto|].
      destruct (Z.ltb_spec off_max (zlen (f_data f) + n)); destruct (Z.leb_spec (zlen (f_data f) + n) off_max);
        try lia; cbn [fst snd map_res].
      * auto.
      * split; [reflexivity|]. apply M. lia.
    + destruct (Z.ltb_spec (f_pos f + n) 0); cbn [fst snd map_res]; [auto|].
      destruct (Z.ltb_spec off_max (f_pos f + n)); destruct (Z.leb_spec (f_pos f + n) off_max);
        try lia; cbn [fst snd map_res].
      * auto.
      * split; [reflexivity|]. apply M. lia.
  - cbn [io_tell file_io]. unfold file_tell, as_usize. rewrite EP. cbn. auto.
  - rewrite size_on_disk by assumption. cbn [fst snd map_res f_data f_pos]. rewrite EL, EP.
    split; [reflexivity|]. split; [now apply (shown_move _ (f_pos f))|].
    assert (0 <= f_pos f mod usize_lim e <= f_pos f).
    { destruct (usize_lim_cases e) as [E|E]; rewrite E;
        (split; [apply Z.mod_pos_bound; lia|apply Z.mod_le; lia]). }
    constructor; cbn; auto; lia.
Qed.

Lemma disk_history e rd wr cs : forall f a,
  Forall call_ok cs -> disk_ok rd wr f -> shown (f_data f) (f_pos f) a ->
  let '(answers, f') := run_calls (call_on (file_io e)) cs f in
  let '(answers', a') := run_calls (a_disk_call (usize_lim e) rd wr) cs a in
  answers = answers' /\ shown (f_data f') (f_pos f') a'.
Proof.
  induction cs as [|c cs IH]; intros f a Hok Hk HS; [cbn; auto|].
  inversion Hok as [|? ? Hc Hcs]; subst.
  destruct (disk_step e rd wr c f a Hc Hk HS) as (H1 & H2 & H3).
  cbn [run_calls].
  destruct (call_on (file_io e) c f) as [x f'], (a_disk_call (usize_lim e) rd wr c a) as [y a'].
  cbn [fst snd] in *. subst y. specialize (IH f' a' Hcs H3 H2).
  destruct (run_calls (call_on (file_io e)) cs f') as [xs f''],
           (run_calls (a_disk_call (usize_lim e) rd wr) cs a') as [ys a''].
  destruct IH as [-> ?]. destruct x; auto.
Qed.

(** ** A buffer of fixed length *)
Lemma splice_put d p bs : 0 <= p -> p + zlen bs <= zlen d -> bs <> [] -> splice d (Z.to_nat p) bs = put d p bs.
Proof.
  intros Hp Hl Hb. destruct bs as [|x bs']; [easy|]. cbn [put]. rewrite store_at_splice.
  replace (Z.to_nat (p - zlen d)) with 0%nat by (unfold zlen in *; simpl length in *; lia).
  cbn [repeat]. now rewrite app_nil_r.
Qed.

Lemma buffer_step e c s a : call_ok c -> mem_wf e s -> growable s = false -> shown (mem_data s) (mem_pos s) a ->
  let s' := snd (call_on (mem_io e) c s) in
  fst (call_on (mem_io e) c s) = fst (a_buffer_call (usize_lim e) (eof_moves e) c a) /\
  shown (mem_data s') (mem_pos s') (snd (a_buffer_call (usize_lim e) (eof_moves e) c a)) /\
  mem_wf e s' /\ growable s' = false /\ length (mem_data s') = length (mem_data s).
Proof.
  intros Hc Hwf G HS. pose proof Hwf as [Hp Hl]. destruct (shown_len _ _ _ HS) as [EL EP].
  pose proof (zlen_nonneg (mem_data s)) as Hz.
  assert (LL : zlen (mem_data s) < 2 ^ 64).
  { destruct (isize_max_cases e) as [[E1 E2]|[E1 E2]]; rewrite E1 in Hl; lia. }
  assert (M : forall q, 0 <= q < 2 ^ 64 ->
    shown (mem_data s) q (a_move a q) /\ mem_wf e (mkMem (growable s) (mem_data s) q) /\
    growable s = false /\ length (mem_data s) = length (mem_data s)).
  { intros q Hq. split; [now apply (shown_move _ (mem_pos s))|]. repeat split; auto; apply Hq. }
  destruct c as [n|bs|p| |]; cbn [call_on a_buffer_call].
  - rewrite read_array_mem by lia. unfold a_read. rewrite EL, EP.
    destruct (Nat.eqb_spec n 0) as [->|N0]; cbn [orb].
    { cbn [fst snd map_res mem_data mem_pos firstn]. rewrite Z.add_0_r.
      replace (mkMem (growable s) (mem_data s) (mem_pos s)) with s by now destruct s. auto. }
    destruct (Z.leb_spec (mem_pos s + Z.of_nat n) (zlen (mem_data s))) as [Hf|Hf]; cbn [fst snd map_res].
    + split.
      * do 2 f_equal. symmetry. apply shown_range; [lia|lia|exact HS].
      * cbn [mem_data mem_pos growable]. apply M. lia.
    + split; [reflexivity|]. destruct (eof_moves e); cbn [mem_data mem_pos growable].
      * apply M. lia.
      * split; [now apply shown_stay|]. auto.
  - cbn [io_write mem_io]. unfold a_write. rewrite EL, EP.
    destruct (Nat.eqb_spec (length bs) 0) as [N0|N0].
    { destruct bs; [|discriminate]. rewrite mem_write_nil by (rewrite G; reflexivity). cbn. auto. }
    assert (Nb : bs <> []) by now intros ->.
    pose proof (mem_write_slice e s bs G (proj1 Hp) Nb) as E. cbv zeta in E. rewrite E. clear E.
    assert (R : room s = (length (mem_data s) - Z.to_nat (mem_pos s))%nat) by reflexivity.
    destruct (Z.leb_spec (mem_pos s + Z.of_nat (length bs)) (zlen (mem_data s))) as [Hf|Hf]; unfold zlen in *.
    + replace (length bs <=? room s)%nat with true by lia.
      replace (room s =? 0)%nat with false by lia.
      replace (Nat.min (length bs) (room s)) with (length bs) by lia. rewrite firstn_all.
      cbn [fst snd map_res mem_data mem_pos growable]. rewrite splice_put by (try easy; unfold zlen; lia).
      split; [reflexivity|]. split; [apply shown_put; easy|].
      assert (LP : zlen (put (mem_data s) (mem_pos s) bs) = zlen (mem_data s))
        by (rewrite put_length by easy; unfold zlen; lia).
      split; [split; cbn [mem_data mem_pos]; [lia|rewrite LP; exact Hl]|].
      split; [reflexivity|]. unfold zlen in LP. lia.
    + replace (length bs <=? room s)%nat with false by lia.
      replace (Nat.min (length bs) (room s)) with (room s) by lia.
      cbn [fst snd map_res mem_data mem_pos growable]. split; [reflexivity|].
      destruct (Z.leb_spec (Z.of_nat (length (mem_data s))) (mem_pos s)) as [Hlim|Hlim].
      * assert (R0 : room s = 0%nat) by lia. rewrite R0. cbn [Nat.eqb firstn Z.of_nat]. rewrite Z.add_0_r.
        split; [exact HS|]. split; [split; cbn [mem_data mem_pos]; assumption|]. auto.
      * replace (room s =? 0)%nat with false by lia.
        replace (Z.to_nat (Z.of_nat (length (mem_data s)) - mem_pos s)) with (room s) by lia.
        set (k := room s) in *.
        assert (Nk : firstn k bs <> []).
        { destruct k; [lia|]. destruct bs; [easy|discriminate]. }
        assert (Lk : zlen (firstn k bs) = Z.of_nat k) by (unfold zlen; rewrite firstn_length; lia).
        rewrite splice_put by (try easy; unfold zlen in *; lia). rewrite <- Lk.
        split; [apply shown_put; easy|].
        assert (LP : zlen (put (mem_data s) (mem_pos s) (firstn k bs)) = zlen (mem_data s))
          by (rewrite put_length by easy; unfold zlen in *; lia).
        split; [split; cbn [mem_data mem_pos]; [lia|rewrite LP; exact Hl]|].
        split; [reflexivity|]. unfold zlen in LP. lia.
  - cbn [io_seek mem_io]. unfold mem_seek, a_target. rewrite EL, EP.
    destruct p as [n|n|n]; cbn [call_ok] in Hc.
    + replace ((0 <=? n) && (n <? 2 ^ 64)) with true by lia. cbn [fst snd map_res mem_data mem_pos growable].
      split; [reflexivity|]. apply M. lia.
    + destruct ((0 <=? zlen (mem_data s) + n) && (zlen (mem_data s) + n <? 2 ^ 64)) eqn:E;
        cbn [fst snd map_res mem_data mem_pos growable]; [|auto]. split; [reflexivity|]. apply M. lia.
    + destruct ((0 <=? mem_pos s + n) && (mem_pos s + n <? 2 ^ 64)) eqn:E;
        cbn [fst snd map_res mem_data mem_pos growable]; [|auto]. split; [reflexivity|]. apply M. lia.
  - cbn [io_tell mem_io]. unfold mem_tell, as_usize. rewrite EP. cbn. auto.
  - rewrite reported_size_mem by assumption. cbn [fst snd map_res mem_data mem_pos growable]. rewrite EL, EP.
    split; [reflexivity|]. apply M.
    destruct (usize_lim_cases e) as [E|E]; rewrite E;
      [pose proof (Z.mod_pos_bound (mem_pos s) (2 ^ 32)) | pose proof (Z.mod_pos_bound (mem_pos s) (2 ^ 64))]; lia.
Qed.

Lemma buffer_history e cs : forall s a,
  Forall call_ok cs -> mem_wf e s -> growable s = false -> shown (mem_data s) (mem_pos s) a ->
  let '(answers, s') := run_calls (call_on (mem_io e)) cs s in
  let '(answers', a') := run_calls (a_buffer_call (usize_lim e) (eof_moves e)) cs a in
  answers = answers' /\ shown (mem_data s') (mem_pos s') a' /\ length (mem_data s') = length (mem_data s).
Proof.
  induction cs as [|c cs IH]; intros s a Hok Hk G HS; [cbn; auto|].
  inversion Hok as [|? ? Hc Hcs]; subst.
  destruct (buffer_step e c s a Hc Hk G HS) as (H1 & H2 & H3 & H4 & H5).
  cbn [run_calls].
  destruct (call_on (mem_io e) c s) as [x s'], (a_buffer_call (usize_lim e) (eof_moves e) c a) as [y a'].
  cbn [fst snd] in *. subst y. specialize (IH s' a' Hcs H3 H4 H2).
  destruct (run_calls (call_on (mem_io e)) cs s') as [xs s''],
           (run_calls (a_buffer_call (usize_lim e) (eof_moves e)) cs a') as [ys a''].
  destruct IH as (-> & ? & ?). destruct x; rewrite <- ?H5; auto.
Qed.

(** ** From memory to disk *)
Definition roomy (e : env) (cs : list call) (m : FileMem) : Prop :=
  forall k, mem_pos (snd (run_calls (call_on (mem_io e)) (firstn k cs) m)) <= off_max.

Lemma back_step e c f m x : is64 e = true -> call_ok c -> plain_write e c -> disk_ok true true f -> sim f m ->
  fst (call_on (mem_io e) c m) = Ok x -> mem_pos (snd (call_on (mem_io e) c m)) <= off_max ->
  fst (call_on (file_io e) c f) = Ok x.
Proof.
  intros H64 Hc Hpl Hk (G & ED & EP) Hx Hlim.
  destruct (is64_lims e H64) as [EU EI]. pose proof Hk as [Hr Hw Hp Hl Hn].
  assert (Hwf : mem_wf e m).
  { split; rewrite ?ED, ?EP, ?EI; [unfold off_max in *; lia | exact Hl]. }
  assert (HS : shown (f_data f) (f_pos f) (a_of (f_data f) (f_pos f))) by apply a_same_refl.
  destruct (disk_step e true true c f _ Hc Hk HS) as (-> & _ & _).
  destruct (mem_step e c m (a_of (f_data f) (f_pos f)) Hc Hwf) as (H1 & H2 & _).
  { split; [exact G|]. rewrite ED, EP. apply a_same_refl. }
  destruct H2 as [_ (_ & H2 & _)]. cbn [a_of a_pos] in H2. rewrite H1 in Hx. rewrite H2 in Hlim. clear H1 H2.
  unfold a_mem_call in *. rewrite EU, EI in *. revert Hx Hlim.
  destruct c as [n|bs|p| |]; cbn [a_call a_disk_call negb andb].
  - unfold a_read. destruct (n =? 0)%nat; [auto|].
    destruct (_ <=? _); [auto|]. destruct (eof_moves e); discriminate.
  - unfold a_write. change 9223372036854775807 with off_max. cbn [a_of a_pos a_len].
    destruct (Nat.eqb_spec (length bs) 0) as [N0|N0]; cbn [andb].
    { destruct Hpl as [Hpl| ->]; [destruct bs; [easy|discriminate]|]. auto. }
    destruct (_ <=? _); [discriminate|].
    destruct (Z.ltb_spec off_max (f_pos f + Z.of_nat (length bs))); [discriminate|].
    destruct (Z.leb_spec (f_pos f + Z.of_nat (length bs)) off_max); [auto|lia].
  - change 9223372036854775807 with off_max. unfold a_target. cbn [a_of a_pos a_len].
    destruct p as [n|n|n].
    all: set (q := n) in * || idtac.
    all: match goal with |- context [0 <=? ?q] => destruct (Z.leb_spec 0 q); cbn [andb]; [|discriminate] end.
    all: match goal with |- context [?q <? 2 ^ 64] => destruct (Z.ltb_spec q (2 ^ 64)); [|discriminate] end.
    all: cbn [fst snd a_move a_pos]; intros Hx Hlim.
    all: match goal with |- context [?q <? 0] => destruct (Z.ltb_spec q 0); [lia|] end.
    all: match goal with |- context [?q <=? off_max] => destruct (Z.leb_spec q off_max); [exact Hx|lia] end.
  - auto.
  - cbn [a_of a_len a_pos]. intros Hx _. rewrite Z.mod_small; [exact Hx|].
    unfold zlen, off_max in *. lia.
Qed.

Lemma back_history e cs : is64 e = true -> forall f m, disk_ok true true f -> sim f m -> Forall call_ok cs -> Forall (plain_write e) cs ->
  roomy e cs m -> all_ok (fst (run_calls (call_on (mem_io e)) cs m)) ->
  fst (run_calls (call_on (file_io e)) cs f) = fst (run_calls (call_on (mem_io e)) cs m) /\
  sim (snd (run_calls (call_on (file_io e)) cs f)) (snd (run_calls (call_on (mem_io e)) cs m)).
Proof.
  intros H64. induction cs as [|c cs IH]; intros f m Hk Hsim Hc Hpl Hroom Hok; [split; [reflexivity|exact Hsim]|].
  inversion Hc as [|? ? Hc1 Hcs]; inversion Hpl as [|? ? Hpl1 Hpls]; subst.
  pose proof (Hroom 1%nat) as R1. unfold roomy in Hroom. cbn [firstn run_calls] in *.
  destruct (call_on (mem_io e) c m) as [y m'] eqn:Em.
  assert (exists a, y = Ok a) as [x ->].
  { destruct y; [eexists; reflexivity| |].
    - destruct (run_calls (call_on (mem_io e)) cs m'). cbn in Hok. now inversion Hok.
    - cbn in Hok. now inversion Hok. }
  cbn [snd] in R1.
  pose proof (back_step e c f m x H64 Hc1 Hpl1 Hk Hsim ltac:(now rewrite Em) ltac:(now rewrite Em)) as B.
  assert (W : file_wf f) by (destruct Hk; repeat split; auto; lia).
  destruct (file_sim_step e c f m x H64 W Hsim Hc1 Hpl1 B) as (S1 & S2 & S3). rewrite Em in S2. cbn [snd] in S2.
  assert (Hk' : disk_ok true true (snd (call_on (file_io e) c f))).
  { apply (disk_step e true true c f (a_of (f_data f) (f_pos f)) Hc1 Hk). apply a_same_refl. }
  destruct (call_on (file_io e) c f) as [z f']. cbn [fst snd] in *. subst z.
  assert (Rr : roomy e cs m').
  { intros k. specialize (Hroom (S k)). cbn [firstn run_calls] in Hroom. rewrite Em in Hroom.
    destruct (run_calls (call_on (mem_io e)) (firstn k cs) m'). exact Hroom. }
  specialize (IH f' m' Hk' S2 Hcs Hpls Rr).
  destruct (run_calls (call_on (file_io e)) cs f') as [xs f''],
           (run_calls (call_on (mem_io e)) cs m') as [ys m'']. cbn [fst snd] in *.
  assert (all_ok ys) as Hys by (now inversion Hok).
  destruct (IH Hys) as [-> ?]. auto.
Qed.

Lemma mem_file_interchange e cs d p sched :
  is64 e = true -> Forall call_ok cs -> Forall (plain_write e) cs -> 0 <= p <= off_max -> zlen d <= off_max -> no_fail sched ->
  let mem k := snd (run_calls (call_on (mem_io e)) (firstn k cs) (mkMem true d p)) in
  (forall k, mem_pos (mem k) <= off_max) ->
  let '(answers, m) := run_calls (call_on (mem_io e)) cs (mkMem true d p) in
  let '(answers', f) := run_calls (call_on (file_io e)) cs (mkFile d p true true sched) in
  (forall x, In x answers -> exists a, x = Ok a) ->
  answers' = answers /\ f_data f = mem_data m /\ f_pos f = mem_pos m.
Proof.
  intros H64 Hc Hpl Hp Hl Hn mem Hr.
  pose proof (back_history e cs H64 (mkFile d p true true sched) (mkMem true d p)) as H.
  destruct (run_calls (call_on (file_io e)) cs (mkFile d p true true sched)) as [xs f],
           (run_calls (call_on (mem_io e)) cs (mkMem true d p)) as [ys m]. cbn [fst snd] in H.
  intros Hok. destruct H as [H1 (_ & H2 & H3)]; auto.
  - constructor; auto.
  - repeat split.
  - apply Forall_forall. exact Hok.
Qed.
