(** [std::fs::File] as a handler: independence of the OS schedule. *)
From Coq Require Import ZifyBool.
From Verif Require Import M_Base M_IO M_FileMem M_FileFile S_Bytes S_File S_Typed
  P_List P_FileMem P_MemProps P_Typed.
From Verif Require Export S_Conditions.

#[local] Arguments off_max : simpl never.

Lemma no_fail_tail l : no_fail l -> no_fail (ev_tail l).
Proof. destruct 1; [constructor|assumption]. Qed.
Lemma no_fail_head l : no_fail l -> ev_head l <> EvFail.
Proof. destruct 1; [discriminate|assumption]. Qed.

Lemma zmin_skip d p : 0 <= p -> skipn (Z.to_nat (Z.min p (zlen d))) d = skipn (Z.to_nat p) d.
Proof.
  intros. destruct (Z.leb_spec p (zlen d)).
  - f_equal. lia.
  - unfold zlen in *. rewrite !skipn_all2 by lia. reflexivity.
Qed.

Definition reads_of (s : File) (n : nat) : list Z := firstn n (skipn (Z.to_nat (f_pos s)) (f_data s)).

Lemma firstn_split {A} (l : list A) k n : (k <= n)%nat -> firstn n l = firstn k l ++ firstn (n - k) (skipn k l).
Proof.
  revert l n; induction k; intros l n H; [cbn [firstn skipn app]; now rewrite Nat.sub_0_r|].
  destruct n; [lia|]. destruct l; [rewrite skipn_nil, !firstn_nil; reflexivity|]. simpl. f_equal. apply IHk. lia.
Qed.

(** The [read_exact] loop.  [todo] is what is left of the caller's buffer. *)
Lemma read_loop fuel : forall s got todo,
  f_readable s = true -> 0 <= f_pos s ->
  (length (f_sched s) + length todo < fuel)%nat ->
  exists r s' buf' k,
    read_exact_loop fuel s got todo = (r, s', buf') /\
    f_data s' = f_data s /\ f_readable s' = true /\ f_writable s' = f_writable s /\
    f_pos s' = f_pos s + Z.of_nat k /\ (k <= length todo)%nat /\
    length (reads_of s k) = k /\
    buf' = got ++ reads_of s k ++ skipn k todo /\
    (no_fail (f_sched s) -> no_fail (f_sched s')) /\
    (r = Ok tt /\ k = length todo \/
     r = Err UnexpectedEof /\ (k < length todo)%nat /\ k = (length (f_data s) - Z.to_nat (f_pos s))%nat \/
     r = Err OsError /\ (k < length todo)%nat /\ ~ no_fail (f_sched s)).
Proof.
  induction fuel as [|f IH]; intros s got todo Hr Hp Hf; [lia|].
  destruct todo as [|t0 todo0].
  { exists (Ok tt), s, got, 0%nat. cbn [read_exact_loop]. unfold reads_of.
    rewrite firstn_O, Z.add_0_r. cbn. rewrite app_nil_r. repeat split; auto. }
  set (todo := t0 :: todo0) in *.
  assert (Ht : todo <> []) by easy.
  assert (Lt : (1 <= length todo)%nat) by (simpl; lia).
  replace (read_exact_loop (S f) s got todo) with
    (match sys_read s (length todo) with
     | (SysOk [], s') => (Err UnexpectedEof, s', got ++ todo)
     | (SysOk bs, s') => read_exact_loop f s' (got ++ bs) (skipn (length bs) todo)
     | (SysIntr, s') => read_exact_loop f s' got todo
     | (SysFail, s') => (Err OsError, s', got ++ todo)
     end) by reflexivity.
  clearbody todo.
  unfold sys_read. rewrite Hr. cbn [negb].
  set (s0 := mkFile (f_data s) (f_pos s) true (f_writable s) (ev_tail (f_sched s))).
  set (rest := skipn (Z.to_nat (Z.min (f_pos s) (zlen (f_data s)))) (f_data s)).
  assert (Erest : rest = skipn (Z.to_nat (f_pos s)) (f_data s)) by now apply zmin_skip.
  assert (Lrest : length rest = (length (f_data s) - Z.to_nat (f_pos s))%nat)
    by (rewrite Erest; apply skipn_length).
  assert (NF : no_fail (f_sched s) -> no_fail (ev_tail (f_sched s))) by apply no_fail_tail.
  (* the transfer case, shared by EvFull and EvShort *)
  assert (Go : forall ev, ev_head (f_sched s) = ev -> ev <> EvIntr -> ev <> EvFail ->
    let k := ev_amount ev (Nat.min (length todo) (length rest)) in
    let s1 := mkFile (f_data s) (f_pos s + Z.of_nat k) true (f_writable s) (ev_tail (f_sched s)) in
    exists r s' buf' k0,
      match firstn k rest with
      | [] => (Err UnexpectedEof, s1, got ++ todo)
      | _ => read_exact_loop f s1 (got ++ firstn k rest) (skipn (length (firstn k rest)) todo)
      end = (r, s', buf') /\
      f_data s' = f_data s /\ f_readable s' = true /\ f_writable s' = f_writable s /\
      f_pos s' = f_pos s + Z.of_nat k0 /\ (k0 <= length todo)%nat /\
      length (reads_of s k0) = k0 /\
      buf' = got ++ reads_of s k0 ++ skipn k0 todo /\
      (no_fail (f_sched s) -> no_fail (f_sched s')) /\
      (r = Ok tt /\ k0 = length todo \/
       r = Err UnexpectedEof /\ (k0 < length todo)%nat /\ k0 = (length (f_data s) - Z.to_nat (f_pos s))%nat \/
       r = Err OsError /\ (k0 < length todo)%nat /\ ~ no_fail (f_sched s))).
  { intros ev Eev N1 N2 k s1.
    assert (Hk : (k <= Nat.min (length todo) (length rest))%nat /\
                 (0 < length rest -> 1 <= k)%nat /\
                 (f_sched s = [] -> k = Nat.min (length todo) (length rest))).
    { unfold k, ev_amount. repeat split.
      - destruct ev; lia.
      - destruct ev; lia.
      - intros Es. rewrite Es in Eev. cbn in Eev. subst ev. reflexivity. }
    destruct Hk as (Hk1 & Hk2 & Hk3). clearbody k.
    destruct (firstn k rest) as [|y ys] eqn:Ef.
    - assert (Z0 : length (firstn k rest) = 0%nat) by now rewrite Ef.
      rewrite firstn_length in Z0.
      assert (k = 0%nat /\ length rest = 0%nat) as [-> Er0] by lia.
      exists (Err UnexpectedEof), s1, (got ++ todo), 0%nat. unfold s1, reads_of. cbn.
      repeat split; auto; try lia. right; left. repeat split; lia.
    - rewrite <- Ef. assert (Lk : length (firstn k rest) = k) by (rewrite firstn_length; lia).
      assert (1 <= k)%nat by (rewrite <- Lk, Ef; simpl; lia).
      rewrite Lk.
      destruct (IH s1 (got ++ firstn k rest) (skipn k todo)) as
        (r & s' & buf' & k' & E1 & E2 & E3 & E4 & E5 & E6 & E7 & E8 & E9 & E10).
      { reflexivity. }
      { unfold s1; cbn; lia. }
      { unfold s1; cbn [f_sched]. rewrite skipn_length.
        destruct (f_sched s) as [|ev0 rest0] eqn:Es; cbn [ev_tail length] in *; lia. }
      exists r, s', buf', (k + k')%nat.
      unfold s1 in *. cbn [f_data f_pos f_readable f_writable f_sched] in *.
      rewrite skipn_length in E6, E10.
      assert (Esplit : reads_of s (k + k') = firstn k rest ++
        reads_of (mkFile (f_data s) (f_pos s + Z.of_nat k) true (f_writable s) (ev_tail (f_sched s))) k').
      { unfold reads_of. cbn [f_pos f_data]. rewrite Erest.
        rewrite (firstn_split _ k) by lia. f_equal.
        replace (k + k' - k)%nat with k' by lia. f_equal. rewrite skipn_add. f_equal. lia. }
      split; [exact E1|]. split; [exact E2|]. split; [exact E3|]. split; [exact E4|].
      split; [lia|]. split; [lia|].
      split; [rewrite Esplit, app_length, Lk, E7; reflexivity|].
      split. { rewrite E8, Esplit, <- !app_assoc. do 2 f_equal. now rewrite skipn_add. }
      split; [auto|].
      destruct E10 as [[-> Ek]|[(-> & Ek1 & Ek2)|(-> & Ek1 & Ek2)]].
      + left. split; [reflexivity|lia].
      + right; left. repeat split; lia.
      + right; right. repeat split; [lia|]. intros NFs. apply Ek2. auto. }
  destruct (ev_head (f_sched s)) eqn:Eev.
  - specialize (Go _ eq_refl ltac:(discriminate) ltac:(discriminate)). cbv zeta in Go.
    destruct (firstn (ev_amount EvFull (Nat.min (length todo) (length rest))) rest); exact Go.
  - specialize (Go _ eq_refl ltac:(discriminate) ltac:(discriminate)). cbv zeta in Go.
    destruct (firstn (ev_amount (EvShort k) (Nat.min (length todo) (length rest))) rest); exact Go.
  - destruct (IH s0 got todo) as
      (r & s' & buf' & k' & E1 & E2 & E3 & E4 & E5 & E6 & E7 & E8 & E9 & E10); try reflexivity.
    { exact Hp. }
    { unfold s0; cbn [f_sched]. destruct (f_sched s); [discriminate|]. cbn [ev_tail length] in *. lia. }
    exists r, s', buf', k'. unfold s0 in *. cbn [f_data f_pos f_readable f_writable f_sched] in *.
    repeat split; auto.
    destruct E10 as [?|[?|(H1 & H2 & H3)]]; auto. right; right. repeat split; auto.
  - exists (Err OsError), s0, (got ++ todo), 0%nat. unfold s0, reads_of. cbn.
    repeat split; auto; try lia. right; right. repeat split; [lia|].
    intros NFs. apply no_fail_head in NFs. contradiction.
Qed.

Lemma file_read_gen s buf : f_readable s = true -> 0 <= f_pos s ->
  exists r s' buf' k,
    file_read s buf = (r, s', buf') /\
    f_data s' = f_data s /\ f_readable s' = true /\ f_writable s' = f_writable s /\
    f_pos s' = f_pos s + Z.of_nat k /\ (k <= length buf)%nat /\
    length (reads_of s k) = k /\
    buf' = reads_of s k ++ skipn k buf /\
    (no_fail (f_sched s) -> no_fail (f_sched s')) /\
    (r = Ok tt /\ k = length buf \/
     r = Err UnexpectedEof /\ (k < length buf)%nat /\ k = (length (f_data s) - Z.to_nat (f_pos s))%nat \/
     r = Err OsError /\ (k < length buf)%nat /\ ~ no_fail (f_sched s)).
Proof.
  intros Hr Hp. destruct (read_loop (length (f_sched s) + length buf + 1) s [] buf Hr Hp) as
    (r & s' & buf' & k & H); [lia|].
  exists r, s', buf', k. exact H.
Qed.

(** The fuel suffices: a file read never panics. *)
Lemma file_read_fuel s buf : 0 <= f_pos s -> fst (fst (file_read s buf)) <> Panic.
Proof.
  intros Hp. destruct (f_readable s) eqn:Hr.
  - destruct (file_read_gen s buf Hr Hp) as (r & s' & b & k & E & _ & _ & _ & _ & _ & _ & _ & _ & H).
    rewrite E. cbn. intros ->. destruct H as [[? ?]|[[? ?]|[? ?]]]; discriminate.
  - unfold file_read. destruct buf as [|x b].
    + destruct (length (f_sched s) + length (@nil Z) + 1)%nat; cbn; discriminate.
    + rewrite Nat.add_1_r. cbn [read_exact_loop]. unfold sys_read. rewrite Hr. cbn. discriminate.
Qed.

(** The write loop. *)
Lemma write_loop fuel : forall s buf,
  f_writable s = true -> 0 <= f_pos s <= off_max ->
  (length (f_sched s) + length buf < fuel)%nat ->
  exists r s' k,
    file_write_loop fuel s buf = (r, s') /\
    f_readable s' = f_readable s /\ f_writable s' = true /\
    (k <= length buf)%nat /\ f_pos s' = f_pos s + Z.of_nat k /\ f_pos s' <= off_max /\
    f_data s' = put (f_data s) (f_pos s) (firstn k buf) /\
    (no_fail (f_sched s) -> no_fail (f_sched s')) /\
    (r = Ok tt /\ k = length buf \/
     r = Err OsError /\ (k < length buf)%nat /\ 
       (~ no_fail (f_sched s) \/ off_max < f_pos s + zlen buf /\ f_pos s' = off_max)).
Proof.
  induction fuel as [|f IH]; intros s buf Hw Hp Hf; [lia|].
  destruct buf as [|b0 buf0].
  { exists (Ok tt), s, 0%nat. cbn. rewrite Z.add_0_r. repeat split; auto; try lia. }
  set (buf := b0 :: buf0) in *.
  assert (Lb : (1 <= length buf)%nat) by (simpl; lia).
  replace (file_write_loop (S f) s buf) with
    (match sys_write s buf with
     | (SysOk n, s') => if n =? 0 then (Err WriteZero, s')
                        else file_write_loop f s' (skipn (Z.to_nat n) buf)
     | (SysIntr, s') => file_write_loop f s' buf
     | (SysFail, s') => (Err OsError, s')
     end) by reflexivity.
  clearbody buf.
  unfold sys_write. rewrite Hw. cbn [negb].
  set (s0 := mkFile (f_data s) (f_pos s) (f_readable s) true (ev_tail (f_sched s))).
  set (rm := Z.to_nat (Z.min (zlen buf) (off_max - f_pos s))).
  assert (Hrm : rm = Z.to_nat (Z.min (zlen buf) (off_max - f_pos s))) by reflexivity.
  clearbody rm.
  assert (NF : no_fail (f_sched s) -> no_fail (ev_tail (f_sched s))) by apply no_fail_tail.
  assert (Go : forall ev, ev_head (f_sched s) = ev -> ev <> EvIntr -> ev <> EvFail ->
    exists r s' k,
      match (if (rm =? 0)%nat && negb (zlen buf =? 0) then (SysFail, s0)
             else let k := ev_amount ev rm in
               (SysOk (Z.of_nat k),
                mkFile (store_at (f_data s) (f_pos s) (firstn k buf)) (f_pos s + Z.of_nat k)
                     (f_readable s) true (ev_tail (f_sched s)))) with
      | (SysOk n, s') => if n =? 0 then (Err WriteZero, s')
                        else file_write_loop f s' (skipn (Z.to_nat n) buf)
      | (SysIntr, s') => file_write_loop f s' buf
      | (SysFail, s') => (Err OsError, s')
      end = (r, s') /\
      f_readable s' = f_readable s /\ f_writable s' = true /\
      (k <= length buf)%nat /\ f_pos s' = f_pos s + Z.of_nat k /\ f_pos s' <= off_max /\
      f_data s' = put (f_data s) (f_pos s) (firstn k buf) /\
      (no_fail (f_sched s) -> no_fail (f_sched s')) /\
      (r = Ok tt /\ k = length buf \/
       r = Err OsError /\ (k < length buf)%nat /\
         (~ no_fail (f_sched s) \/ off_max < f_pos s + zlen buf /\ f_pos s' = off_max))).
  { intros ev Eev N1 N2. unfold zlen in *.
    destruct ((rm =? 0)%nat && negb (Z.of_nat (length buf) =? 0)) eqn:E0.
    - exists (Err OsError), s0, 0%nat. unfold s0. cbn. rewrite Z.add_0_r.
      repeat split; auto; try lia. right. repeat split; [lia|]. right. split; lia.
    - cbv zeta. set (k := ev_amount ev rm).
      assert (Hk : (1 <= k <= rm)%nat) by (unfold k, ev_amount; destruct ev; try congruence; lia).
      assert (Hk3 : f_sched s = [] -> k = rm).
      { intros Es. rewrite Es in Eev. cbn in Eev. subst ev. reflexivity. }
      clearbody k.
      replace (Z.of_nat k =? 0) with false by lia. rewrite Nat2Z.id.
      set (s1 := mkFile _ _ _ _ _).
      destruct (IH s1 (skipn k buf)) as (r & s' & k' & E1 & E2 & E3 & E4 & E5 & E6 & E7 & E8 & E9).
      { reflexivity. }
      { unfold s1; cbn. lia. }
      { unfold s1; cbn [f_sched]. rewrite skipn_length.
        destruct (f_sched s) as [|ev0 rest0] eqn:Es; cbn [ev_tail length] in *; lia. }
      exists r, s', (k + k')%nat.
      unfold s1 in *. cbn [f_data f_pos f_readable f_writable f_sched] in *.
      rewrite skipn_length in E4, E9.
      split; [exact E1|]. split; [exact E2|]. split; [exact E3|]. split; [lia|]. split; [lia|].
      split; [exact E6|].
      split.
      { rewrite E7.
        assert (Lf : zlen (firstn k buf) = Z.of_nat k) by (unfold zlen; rewrite firstn_length; lia).
        rewrite <- Lf.
        replace (store_at (f_data s) (f_pos s) (firstn k buf)) with (put (f_data s) (f_pos s) (firstn k buf)).
        2:{ destruct (firstn k buf) eqn:Ef; [|reflexivity]. change (zlen []) with 0 in Lf. lia. }
        rewrite put_put by lia. f_equal.
        rewrite (firstn_split _ k (k + k')) by lia. do 2 f_equal. lia. }
      split; [auto|].
      destruct E9 as [[-> Ek]|(-> & Ek & Hc)].
      + left. split; [reflexivity|lia].
      + right. repeat split; [lia|]. destruct Hc as [Hc|Hc].
        * left. auto.
        * right. split; lia. }
  destruct (ev_head (f_sched s)) eqn:Eev.
  - exact (Go _ eq_refl ltac:(discriminate) ltac:(discriminate)).
  - exact (Go _ eq_refl ltac:(discriminate) ltac:(discriminate)).
  - destruct (IH s0 buf) as (r & s' & k' & E1 & E2 & E3 & E4 & E5 & E6 & E7 & E8 & E9); try reflexivity.
    { exact Hp. }
    { unfold s0; cbn [f_sched]. destruct (f_sched s); [discriminate|]. cbn [ev_tail length] in *. lia. }
    exists r, s', k'. unfold s0 in *. cbn [f_data f_pos f_readable f_writable f_sched] in *.
    repeat split; auto.
    destruct E9 as [H0|(H1 & H2 & H3)]; [left; exact H0|right]. split; [exact H1|]. split; [exact H2|].
    destruct H3 as [H3|H3]; [left; auto|right; exact H3].
  - exists (Err OsError), s0, 0%nat. unfold s0. cbn. rewrite Z.add_0_r.
    repeat split; auto; try lia. right. repeat split; [lia|]. left.
    intros NFs. apply no_fail_head in NFs. contradiction.
Qed.

Lemma file_write_gen s buf : f_writable s = true -> 0 <= f_pos s <= off_max ->
  exists r s' k,
    file_write s buf = (r, s') /\
    f_readable s' = f_readable s /\ f_writable s' = true /\
    (k <= length buf)%nat /\ f_pos s' = f_pos s + Z.of_nat k /\ f_pos s' <= off_max /\
    f_data s' = put (f_data s) (f_pos s) (firstn k buf) /\
    (no_fail (f_sched s) -> no_fail (f_sched s')) /\
    (r = Ok tt /\ k = length buf \/
     r = Err OsError /\ (k < length buf)%nat /\ 
       (~ no_fail (f_sched s) \/ off_max < f_pos s + zlen buf /\ f_pos s' = off_max)).
Proof. intros. apply write_loop; try assumption. lia. Qed.

Lemma file_write_fuel s buf : 0 <= f_pos s <= off_max -> fst (file_write s buf) <> Panic.
Proof.
  intros Hp. destruct (f_writable s) eqn:Hw.
  - destruct (file_write_gen s buf Hw Hp) as (r & s' & k & E & _ & _ & _ & _ & _ & _ & _ & H).
    rewrite E. cbn. intros ->. destruct H as [[? ?]|[? ?]]; discriminate.
  - unfold file_write. destruct buf as [|x b].
    + destruct (length (f_sched s) + length (@nil Z) + 1)%nat; cbn; discriminate.
    + rewrite Nat.add_1_r. cbn [file_write_loop]. unfold sys_write. rewrite Hw. cbn. discriminate.
Qed.

(** ** reported_size on a file *)
Lemma reported_size_file e s : 0 <= f_pos s <= off_max -> zlen (f_data s) <= off_max ->
  zlen (f_data s) < usize_lim e ->
  reported_size (file_io e) s =
  (Ok (zlen (f_data s)),
   mkFile (f_data s) (f_pos s mod usize_lim e) (f_readable s) (f_writable s) (f_sched s)).
Proof.
  intros Hp Hl Hu. pose proof (zlen_nonneg (f_data s)).
  unfold reported_size. cbn [io_tell io_seek file_io]. unfold file_tell, bind at 1.
  unfold file_seek at 1. rewrite Z.add_0_r.
  replace (zlen (f_data s) <? 0) with false by lia.
  replace (off_max <? zlen (f_data s)) with false by lia.
  cbn [bind file_seek f_pos f_data f_readable f_writable f_sched]. unfold as_usize.
  rewrite (Z.mod_small (zlen _)) by lia.
  replace (off_max <? f_pos s mod usize_lim e) with false; [reflexivity|].
  pose proof (Z.mod_le (f_pos s) (usize_lim e)).
  destruct (usize_lim_cases e) as [E|E]; rewrite E in *; lia.
Qed.

(** ** Simulation by a memory file *)
Definition sim (f : File) (m : FileMem) : Prop :=
  growable m = true /\ mem_data m = f_data f /\ mem_pos m = f_pos f.
Definition file_wf (f : File) : Prop :=
  f_readable f = true /\ f_writable f = true /\ 0 <= f_pos f <= off_max /\ zlen (f_data f) <= off_max.

Lemma is64_lims e : is64 e = true -> usize_lim e = 2 ^ 64 /\ isize_max e = off_max.
Proof. intros E. unfold isize_max, usize_lim, usize_bits. rewrite E. split; reflexivity. Qed.

Lemma file_sim_step e c f m a : is64 e = true -> file_wf f -> sim f m -> call_ok c -> plain_write e c ->
  fst (call_on (file_io e) c f) = Ok a ->
  fst (call_on (mem_io e) c m) = Ok a /\
  sim (snd (call_on (file_io e) c f)) (snd (call_on (mem_io e) c m)) /\
  file_wf (snd (call_on (file_io e) c f)).
Proof.
  intros H64 (Hr & Hw & Hp & Hl) (G & ED & EP) Hc Hpl Hok.
  destruct (is64_lims e H64) as [EU EI].
  assert (Hwf : mem_wf e m).
  { split; rewrite ?ED, ?EP, ?EI; [unfold off_max in *; lia | exact Hl]. }
  destruct c as [n|bs|p| |].
  - unfold call_on in *. rewrite read_array_mem by lia. rewrite ED, EP.
    unfold read_array in *. cbn [io_read file_io] in *.
    destruct (file_read_gen f (repeat 0 n) Hr (proj1 Hp)) as
      (r & f' & buf & k & E & E1 & E2 & E3 & E4 & E5 & E6 & E7 & E8 & E9).
    rewrite E in *. rewrite repeat_length in *.
    destruct E9 as [[-> Ek]|[(-> & _)|(-> & _)]]; cbn [fst snd map_res] in *; try discriminate.
    injection Hok as <-. subst k buf.
    assert (HE : (n =? 0)%nat || (f_pos f + Z.of_nat n <=? zlen (f_data f)) = true).
    { unfold reads_of in E6. rewrite firstn_length, skipn_length in E6. unfold zlen. lia. }
    rewrite HE. cbn [fst snd map_res].
    rewrite (skipn_all2 (repeat 0 n)) by (rewrite repeat_length; lia).
    rewrite app_nil_r. split; [reflexivity|].
    split; [split; [|split]; cbn; [exact G | congruence | lia]|].
    repeat split; try congruence; rewrite ?E1; try lia.
  - unfold call_on in *. cbn [io_write file_io mem_io] in *.
    destruct (file_write_gen f bs Hw Hp) as (r & f' & k & E & E1 & E2 & E3 & E4 & E5 & E6 & E7 & E8).
    rewrite E in *. destruct E8 as [[-> ->]|(-> & _)]; cbn [fst snd map_res] in *; [|discriminate].
    injection Hok as <-. rewrite firstn_all in E6.
    rewrite mem_write_put; try assumption.
    2:{ rewrite EI, EP. unfold zlen. lia. }
    cbn [fst snd map_res]. split; [reflexivity|]. rewrite ED, EP.
    split; [split; [|split]; cbn; [reflexivity | congruence | unfold zlen; lia]|].
    repeat split; try congruence; try lia.
    rewrite E6. destruct bs; [exact Hl|]. rewrite put_length by (try easy; lia). unfold zlen in *. lia.
  - unfold call_on in *. cbn [io_seek file_io mem_io] in *.
    unfold file_seek, mem_seek in *. rewrite ED, EP.
    destruct p as [n|n|n]; cbn [call_ok] in Hc.
    + destruct (off_max <? n) eqn:E1; cbn [fst snd map_res] in *; [discriminate|].
      split; [exact Hok|]. split; [split; [|split]; cbn; congruence|]. repeat split; cbn; try assumption; lia.
    + destruct (zlen (f_data f) + n <? 0) eqn:E1; cbn [fst snd map_res] in *; [discriminate|].
      destruct (off_max <? zlen (f_data f) + n) eqn:E2; cbn [fst snd map_res] in *; [discriminate|].
      replace ((0 <=? zlen (f_data f) + n) && (zlen (f_data f) + n <? 2 ^ 64)) with true by (unfold off_max in *; lia).
      split; [exact Hok|]. split; [split; [|split]; cbn; congruence|]. repeat split; cbn; try assumption; lia.
    + destruct (f_pos f + n <? 0) eqn:E1; cbn [fst snd map_res] in *; [discriminate|].
      destruct (off_max <? f_pos f + n) eqn:E2; cbn [fst snd map_res] in *; [discriminate|].
      replace ((0 <=? f_pos f + n) && (f_pos f + n <? 2 ^ 64)) with true by (unfold off_max in *; lia).
      split; [exact Hok|]. split; [split; [|split]; cbn; congruence|]. repeat split; cbn; try assumption; lia.
  - unfold call_on in *. cbn [io_tell file_io mem_io] in *. unfold file_tell, mem_tell in *.
    cbn [fst snd map_res] in *. rewrite EP. split; [exact Hok|]. split; repeat split; try assumption; lia.
  - unfold call_on in *. rewrite reported_size_mem by assumption.
    rewrite reported_size_file in * by (try assumption; rewrite EU; unfold off_max in *; lia).
    cbn [fst snd map_res] in *. rewrite ED, EP. split; [exact Hok|].
    rewrite Z.mod_small by (rewrite EU; unfold off_max in *; lia).
    split; [split; [|split]; cbn; congruence|]. repeat split; cbn; try assumption; lia.
Qed.

Definition all_ok (xs : list (res answer)) : Prop := Forall (fun x => exists a, x = Ok a) xs.

Lemma file_sim_history e cs : is64 e = true -> forall f m, file_wf f -> sim f m -> Forall call_ok cs -> Forall (plain_write e) cs ->
  all_ok (fst (run_calls (call_on (file_io e)) cs f)) ->
  fst (run_calls (call_on (mem_io e)) cs m) = fst (run_calls (call_on (file_io e)) cs f) /\
  sim (snd (run_calls (call_on (file_io e)) cs f)) (snd (run_calls (call_on (mem_io e)) cs m)).
Proof.
  intros H64. induction cs as [|c cs IH]; intros f m Hwf Hsim Hc Hpl Hok; [split; [reflexivity|exact Hsim]|].
  inversion Hc; inversion Hpl; subst. cbn [run_calls] in *.
  destruct (call_on (file_io e) c f) as [x f'] eqn:Ex.
  assert (exists a, x = Ok a) as [a ->].
  { destruct x; [eexists; reflexivity| |].
    - destruct (run_calls (call_on (file_io e)) cs f'). cbn in Hok. now inversion Hok.
    - cbn in Hok. now inversion Hok. }
  destruct (file_sim_step e c f m a H64 Hwf Hsim) as (S1 & S2 & S3); [assumption|assumption|now rewrite Ex|].
  rewrite Ex in *. cbn [fst snd] in *.
  destruct (call_on (mem_io e) c m) as [y m']. cbn [fst snd] in *. subst y.
  specialize (IH f' m' S3 S2 ltac:(assumption) ltac:(assumption)).
  destruct (run_calls (call_on (file_io e)) cs f') as [xs f''],
           (run_calls (call_on (mem_io e)) cs m') as [ys m'']. cbn [fst snd] in *.
  assert (all_ok xs) as Hxs by (now inversion Hok).
  destruct (IH Hxs) as [-> ?]. auto.
Qed.
