(** Files of the operating system whose system calls fail (C98). *)
From Coq Require Import ZifyBool.
From Verif Require Import M_Base M_IO M_FileMem M_FileFile S_Bytes S_File S_Typed S_Disk
  P_List P_FileMem P_MemProps P_Typed P_FileFile P_Disk.

#[local] Arguments off_max : simpl never.

(** How many hard errors a schedule holds. *)
Definition fails (l : list os_event) : nat :=
  length (filter (fun ev => match ev with EvFail => true | _ => false end) l).

Lemma fails_tail l : (fails (ev_tail l) <= fails l)%nat.
Proof. destruct l as [|[| | |] l]; cbn; unfold fails; lia. Qed.
Lemma fails_head l : ev_head l = EvFail -> (fails (ev_tail l) < fails l)%nat.
Proof. destruct l as [|[| | |] l]; cbn; try discriminate; unfold fails; intros; cbn; lia. Qed.
Lemma no_fail_fails l : no_fail l -> fails l = 0%nat.
Proof. induction 1 as [|x l Hx _ IH]; [reflexivity|]. destruct x; try exact IH. now destruct Hx. Qed.

Lemma read_loop_fails fuel : forall s got todo r s' b,
  read_exact_loop fuel s got todo = (r, s', b) ->
  (fails (f_sched s') <= fails (f_sched s))%nat /\
  (f_readable s = true -> r = Err OsError -> (fails (f_sched s') < fails (f_sched s))%nat).
Proof.
  induction fuel as [|fu IH]; intros s got todo r s' b; destruct todo as [|t0 td].
  1,2,3: cbn; intros [= <- <- <-]; split; [lia|discriminate].
  cbn [read_exact_loop]. unfold sys_read. pose proof (fails_tail (f_sched s)) as T.
  destruct (f_readable s) eqn:R; cbn [negb].
  2: { intros [= <- <- <-]. cbn [f_sched]. split; [lia|discriminate]. }
  destruct (ev_head (f_sched s)) eqn:Ev.
  1,2: cbv zeta; match goal with |- match ?bs with _ => _ end = _ -> _ => destruct bs eqn:Eb end;
    [ intros [= <- <- <-]; cbn [f_sched]; split; [lia|discriminate]
    | intros E; apply IH in E; cbn [f_sched f_readable] in E; destruct E as [E1 E2]; split; [lia|];
      intros _ Hr; specialize (E2 eq_refl Hr); lia ].
  - intros E; apply IH in E; cbn [f_sched f_readable] in E; destruct E as [E1 E2]; split; [lia|].
    intros _ Hr; specialize (E2 eq_refl Hr); lia.
  - intros [= <- <- <-]. cbn [f_sched]. apply fails_head in Ev. split; lia.
Qed.

Lemma write_loop_fails fuel : forall s buf r s',
  file_write_loop fuel s buf = (r, s') -> f_pos s <= off_max ->
  (fails (f_sched s') <= fails (f_sched s))%nat /\
  (f_writable s = true -> r = Err OsError ->
    (fails (f_sched s') < fails (f_sched s))%nat \/ f_pos s' = off_max).
Proof.
  induction fuel as [|fu IH]; intros s buf r s'; destruct buf as [|b0 bf].
  1,2,3: cbn; intros [= <- <-]; split; [lia|discriminate].
  cbn [file_write_loop]. unfold sys_write. pose proof (fails_tail (f_sched s)) as T.
  destruct (f_writable s) eqn:R; cbn [negb].
  2: { intros [= <- <-] _. cbn [f_sched]. split; [lia|discriminate]. }
  set (buf := b0 :: bf) in *. set (rm := Z.to_nat (Z.min (zlen buf) (off_max - f_pos s))).
  assert (Hrm : rm = Z.to_nat (Z.min (zlen buf) (off_max - f_pos s))) by reflexivity. clearbody rm.
  assert (1 <= zlen buf) by (unfold buf, zlen; simpl length; lia). clearbody buf.
  assert (A : forall ev, (ev_amount ev rm <= rm)%nat) by (intros [| | |]; cbn; lia).
  destruct (ev_head (f_sched s)) eqn:Ev; intros E Hp.
  1,2: destruct ((rm =? 0)%nat && negb (zlen buf =? 0)) eqn:E0;
    [ injection E as <- <-; cbn [f_sched f_pos]; split; [lia|]; intros _ _; right; lia | ].
  1: specialize (A EvFull); set (m := ev_amount EvFull rm) in *.
  2: specialize (A (EvShort k)); set (m := ev_amount (EvShort k) rm) in *.
  1,2: clearbody m; cbv zeta in E; destruct (Z.of_nat m =? 0);
    [ injection E as <- <-; cbn [f_sched]; split; [lia|discriminate]
    | apply IH in E; cbn [f_sched f_writable f_pos] in *; [|lia]; destruct E as [E1 E2]; split; [lia|];
      intros _ Hr; destruct (E2 eq_refl Hr); [left; lia|right; assumption] ].
  - apply IH in E; cbn [f_sched f_writable f_pos] in *; [|lia]; destruct E as [E1 E2]; split; [lia|].
    intros _ Hr; destruct (E2 eq_refl Hr); [left; lia|right; assumption].
  - injection E as <- <-. cbn [f_sched]. apply fails_head in Ev. split; [lia|]. intros; left; lia.
Qed.

(** As [disk_ok], with any schedule. *)
Record disk_in (rd wr : bool) (f : File) : Prop := mkDiskIn {
  di_rd : f_readable f = rd;
  di_wr : f_writable f = wr;
  di_pos : 0 <= f_pos f <= off_max;
  di_len : zlen (f_data f) <= off_max
}.

Definition carried_out (e : env) (rd wr : bool) (c : call) (f : File) (a : afile) : Prop :=
  let f' := snd (call_on (file_io e) c f) in
  fst (call_on (file_io e) c f) = fst (a_disk_call (usize_lim e) rd wr c a) /\
  shown (f_data f') (f_pos f') (snd (a_disk_call (usize_lim e) rd wr c a)) /\
  disk_in rd wr f' /\ (fails (f_sched f') <= fails (f_sched f))%nat.

Definition given_up (e : env) (rd wr : bool) (c : call) (f : File) (a : afile) : Prop :=
  let f' := snd (call_on (file_io e) c f) in
  fst (call_on (file_io e) c f) = Err OsError /\
  (exists a1, a_given_up rd wr c a a1 /\ shown (f_data f') (f_pos f') a1) /\
  disk_in rd wr f' /\ (fails (f_sched f') < fails (f_sched f))%nat.

(** Calls that make no transfer do not look at the schedule. *)
Definition resched (f : File) (l : list os_event) : File :=
  mkFile (f_data f) (f_pos f) (f_readable f) (f_writable f) l.
Lemma quiet_sched e c f l : (match c with CRead _ | CWrite _ => False | _ => True end) ->
  call_on (file_io e) c (resched f l) =
  (fst (call_on (file_io e) c f), resched (snd (call_on (file_io e) c f)) l) /\
  f_sched (snd (call_on (file_io e) c f)) = f_sched f.
Proof.
  intros Hq. destruct c as [n|bs|p| |]; try contradiction; clear Hq; cbn [call_on io_seek io_tell file_io].
  - unfold file_seek, resched. destruct p as [n|n|n]; cbn [f_data f_pos f_readable f_writable f_sched].
    all: repeat match goal with |- context [if ?b then _ else _] => destruct b end; split; reflexivity.
  - unfold file_tell, resched. split; reflexivity.
  - unfold reported_size, resched. cbn [io_seek io_tell file_io]. unfold file_tell, bind, file_seek.
    cbn [f_data f_pos f_readable f_writable f_sched].
    repeat match goal with |- context [if ?b then _ else _] => destruct b end; split; reflexivity.
Qed.

Lemma quiet_step e rd wr c f a : (match c with CRead _ | CWrite _ => False | _ => True end) ->
  call_ok c -> disk_in rd wr f -> shown (f_data f) (f_pos f) a -> carried_out e rd wr c f a.
Proof.
  intros Hq Hc [Hr Hw Hp Hl] HS. destruct (quiet_sched e c f [] Hq) as [Q1 Q2].
  destruct (disk_step e rd wr c (resched f []) a Hc) as (H1 & H2 & H3).
  { constructor; cbn; auto. constructor. }
  { exact HS. }
  rewrite Q1 in H1, H2, H3. cbn [fst snd] in *. unfold carried_out. rewrite Q2.
  split; [exact H1|]. split; [exact H2|]. split; [|reflexivity]. destruct H3. constructor; assumption.
Qed.

Lemma any_step e rd wr c f a : call_ok c -> disk_in rd wr f -> shown (f_data f) (f_pos f) a ->
  carried_out e rd wr c f a \/ given_up e rd wr c f a.
Proof.
  intros Hc Hk HS. pose proof Hk as [Hr Hw Hp Hl]. destruct (shown_len _ _ _ HS) as [EL EP].
  pose proof (zlen_nonneg (f_data f)) as Hz.
  destruct c as [n|bs|p| |]; try (left; now apply quiet_step).
  - unfold carried_out, given_up. cbn [call_on a_disk_call a_given_up].
    unfold read_array. cbn [io_read file_io]. unfold a_read. rewrite EL, EP.
    destruct (Nat.eqb_spec n 0) as [->|N0].
    { left. cbn [repeat]. rewrite read_nothing. rewrite andb_false_r. cbn. auto. }
    cbn [negb]. rewrite andb_true_r. destruct rd; cbn [negb].
    + destruct (file_read_gen f (repeat 0 n) Hr (proj1 Hp)) as
        (r & f' & buf & k & E & E1 & E2 & E3 & E4 & E5 & E6 & E7 & E8 & E9).
      rewrite E. unfold file_read in E. apply read_loop_fails in E. destruct E as [F1 F2].
      rewrite repeat_length in *.
      assert (D : forall m, shown (f_data f) (f_pos f + Z.of_nat k) m -> shown (f_data f') (f_pos f') m)
        by (intros m; rewrite E1, E4; auto).
      unfold reads_of in E6. rewrite firstn_length, skipn_length in E6. unfold zlen in *.
      destruct E9 as [[-> Ek]|[(-> & Ek & Eq)|(-> & Ek & _)]].
      * left. subst k. replace (f_pos f + Z.of_nat n <=? Z.of_nat (length (f_data f))) with true by lia.
        cbn [fst snd map_res]. split; [|split; [|split; [|exact F1]]].
        -- do 2 f_equal. rewrite E7, (skipn_all2 (repeat 0 n)) by (rewrite repeat_length; lia).
           rewrite app_nil_r. symmetry. unfold reads_of. apply shown_range; [lia|unfold zlen; lia|exact HS].
        -- apply D. now apply (shown_move _ (f_pos f)).
        -- constructor; auto; try congruence; rewrite ?E1, ?E4; unfold zlen; lia.
      * left. replace (f_pos f + Z.of_nat n <=? Z.of_nat (length (f_data f))) with false by lia.
        cbn [fst snd map_res]. split; [reflexivity|]. split; [|split; [|exact F1]].
        -- apply D. replace (f_pos f + Z.of_nat k) with (Z.max (f_pos f) (Z.of_nat (length (f_data f)))) by lia.
           now apply (shown_move _ (f_pos f)).
        -- constructor; auto; try congruence; rewrite ?E1, ?E4; unfold zlen; lia.
      * right. cbn [fst snd map_res]. split; [reflexivity|]. split; [|split; [|now apply F2]].
        -- exists (a_move a (f_pos f + Z.of_nat k)). split.
           ++ split; [reflexivity|]. exists k. split; [exact Ek|]. split; [lia|reflexivity].
           ++ apply D. now apply (shown_move _ (f_pos f)).
        -- constructor; auto; try congruence; rewrite ?E1, ?E4; unfold zlen; lia.
    + left. destruct (read_denied f (repeat 0 n) Hr) as (f' & E & E1 & E2 & E3 & E4 & E5).
      { destruct n; [easy|discriminate]. }
      rewrite E. unfold file_read in E. apply read_loop_fails in E. destruct E as [F1 _].
      cbn [fst snd map_res]. split; [reflexivity|]. rewrite E1, E2. split; [exact HS|]. split; [|exact F1].
      constructor; auto; try congruence; rewrite ?E1, ?E2; auto.
  - unfold carried_out, given_up. cbn [call_on a_disk_call a_given_up]. change 9223372036854775807 with off_max.
    cbn [io_write file_io]. unfold a_write. rewrite EP.
    destruct (Nat.eqb_spec (length bs) 0) as [N0|N0].
    { left. destruct bs; [|discriminate]. rewrite write_nothing. rewrite andb_false_r. cbn. auto. }
    cbn [negb]. rewrite andb_true_r.
    assert (Nb : bs <> []) by now intros ->.
    destruct wr; cbn [negb].
    + destruct (file_write_gen f bs Hw Hp) as (r & f' & k & E & E1 & E2 & E3 & E4 & E5 & E6 & E7 & E8).
      rewrite E. unfold file_write in E. apply write_loop_fails in E; [|lia]. destruct E as [F1 F2].
      unfold zlen in *.
      assert (Nk : k <> 0%nat -> firstn k bs <> []).
      { destruct k; [lia|]. destruct bs; [easy|discriminate]. }
      assert (Lk : zlen (firstn k bs) = Z.of_nat k) by (unfold zlen; rewrite firstn_length; lia).
      assert (D : shown (f_data f') (f_pos f') (if (k =? 0)%nat then a else a_store a (firstn k bs))).
      { destruct (Nat.eqb_spec k 0) as [K0|K0].
        - rewrite K0 in E6. cbn [firstn put] in E6. rewrite E6. apply (shown_self _ (f_pos f)); [exact HS|lia].
        - rewrite E4, E6, <- Lk. apply shown_put; [lia|auto|exact HS]. }
      assert (Di : disk_in rd true f').
      { constructor; auto; try congruence; [lia|].
        destruct (Nat.eq_dec k 0) as [->|K0]; [rewrite E6; exact Hl|].
        rewrite E6, put_length by (auto; lia). unfold zlen in *. lia. }
      destruct E8 as [[-> ->]|(-> & Ek & _)].
      * left. replace (f_pos f + Z.of_nat (length bs) <=? off_max) with true by lia. cbn [fst snd map_res].
        replace (length bs =? 0)%nat with false in D by lia. rewrite firstn_all in D. auto.
      * cbn [fst snd map_res]. destruct (F2 Hw eq_refl) as [F|F].
        -- right. split; [reflexivity|]. split; [|auto]. eexists. split; [|exact D].
           split; [reflexivity|]. exists k. split; [exact Ek|]. split; [lia|reflexivity].
        -- left. replace (f_pos f + Z.of_nat (length bs) <=? off_max) with false by lia. cbn [fst snd map_res].
           split; [reflexivity|]. assert (Kv : Z.to_nat (off_max - f_pos f) = k) by lia. rewrite Kv.
           split; [|auto].
           destruct (Z.leb_spec off_max (f_pos f)); destruct (Nat.eqb_spec k 0); auto; lia.
    + left. destruct (write_denied f bs Hw Nb) as (f' & E & E1 & E2 & E3 & E4 & E5).
      rewrite E. unfold file_write in E. apply write_loop_fails in E; [|lia]. destruct E as [F1 _].
      cbn [fst snd map_res]. split; [reflexivity|]. rewrite E1, E2. split; [exact HS|]. split; [|exact F1].
      constructor; auto; try congruence; rewrite ?E1, ?E2; auto.
Qed.

Lemma disk_call_calm idx rd wr c a : fst (a_disk_call idx rd wr c a) <> Panic.
Proof.
  destruct c as [n|bs|p| |]; cbn [a_disk_call]; unfold a_read, a_write;
    repeat match goal with |- context [if ?b then _ else _] => destruct b end; cbn; discriminate.
Qed.

Lemma failing_history e rd wr cs : forall f a,
  Forall call_ok cs -> disk_in rd wr f -> shown (f_data f) (f_pos f) a ->
  let '(answers, f') := run_calls (call_on (file_io e)) cs f in
  exists n a', (n <= fails (f_sched f))%nat /\
    a_disk_history (usize_lim e) rd wr n cs a answers a' /\ shown (f_data f') (f_pos f') a'.
Proof.
  induction cs as [|c cs IH]; intros f a Hok Hk HS.
  { cbn. exists 0%nat, a. split; [lia|]. split; [constructor|exact HS]. }
  inversion Hok as [|? ? Hc Hcs]; subst.
  destruct (any_step e rd wr c f a Hc Hk HS) as [(H1 & H2 & H3 & H4)|(H1 & (a1 & G & H2) & H3 & H4)];
    cbn [run_calls]; destruct (call_on (file_io e) c f) as [x f']; cbn [fst snd] in *.
  - pose proof (disk_call_calm (usize_lim e) rd wr c a) as NP. rewrite <- H1 in NP.
    specialize (IH f' _ Hcs H3 H2). destruct (run_calls (call_on (file_io e)) cs f') as [xs f''].
    destruct IH as (n & a' & L & R & Q).
    assert (T : a_disk_history (usize_lim e) rd wr n (c :: cs) a (x :: xs) a')
      by (rewrite H1; now constructor).
    destruct x; [| |easy]; (exists n, a'; split; [lia|]; split; [exact T|exact Q]).
  - subst x. specialize (IH f' a1 Hcs H3 H2). destruct (run_calls (call_on (file_io e)) cs f') as [xs f''].
    destruct IH as (n & a' & L & R & Q). exists (S n), a'. split; [lia|]. split; [|exact Q].
    econstructor; eassumption.
Qed.

(** Without hard errors there is one history only. *)
Lemma history_zero idx rd wr cs : forall a xs a', a_disk_history idx rd wr 0 cs a xs a' ->
  run_calls (a_disk_call idx rd wr) cs a = (xs, a').
Proof.
  induction cs as [|c cs IH]; intros a xs a' H; inversion H; subst; [reflexivity|].
  match goal with R : a_disk_history _ _ _ 0 cs _ _ _ |- _ => apply IH in R; rename R into R' end.
  cbn [run_calls]. pose proof (disk_call_calm idx rd wr c a).
  destruct (a_disk_call idx rd wr c a) as [x a1]. cbn [fst snd] in *. rewrite R'.
  destruct x; [reflexivity|reflexivity|easy].
Qed.
