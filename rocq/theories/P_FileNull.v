(** [FileNull]: lemmas behind C17-C19. *)
From Coq Require Import ZifyBool.
From Verif Require Import M_Base M_Endian M_F64 M_IO M_FileMem M_FileFile M_FileNull S_Bytes S_File S_Typed
  P_Bytes P_Endian P_List P_FileMem P_Typed P_MemProps P_FileFile P_IOProps.

Lemma usize_lim_pos e : 0 < usize_lim e.
Proof. destruct (usize_lim_cases e) as [E|E]; rewrite E; lia. Qed.

Lemma null_read_ok e s buf : pointer s + zlen buf < usize_lim e ->
  null_read e s buf = (Ok tt, mkNull (pointer s + zlen buf) (used_space s), buf).
Proof. intros H. unfold null_read, usize_add. fold (zlen buf). replace (pointer s + zlen buf <? usize_lim e) with true by lia. reflexivity. Qed.

Lemma null_read_array e s n : pointer s + Z.of_nat n < usize_lim e ->
  read_array (null_io e) n s = (Ok (repeat 0 n), mkNull (pointer s + Z.of_nat n) (used_space s)).
Proof.
  intros H. unfold read_array. cbn [io_read null_io].
  rewrite null_read_ok; unfold zlen; rewrite repeat_length; auto.
Qed.

Lemma adjust_zero e n : adjust_int e n (ne_val e (repeat 0 n)) = 0.
Proof.
  rewrite <- (repeat_length 0 n) at 1. rewrite adjust_ne_val.
  - unfold wire_value. assert (B : forall n, big_value (repeat 0 n) = 0).
    { intros m. unfold big_value. rewrite <- fold_left_rev_right.
      assert (R : forall k, rev (repeat 0 k) = repeat 0 k).
      { intros k. induction k; [reflexivity|]. cbn [repeat rev]. rewrite IHk. symmetry. apply repeat_cons. }
      rewrite R. induction m; [reflexivity|]. cbn [repeat fold_right]. rewrite IHm. reflexivity. }
    assert (L : forall n, little_value (repeat 0 n) = 0).
    { intros m. unfold little_value.
      assert (W : forall k w, weigh w (repeat 0 k) = 0) by (induction k; intros; [reflexivity|]; cbn [repeat weigh]; rewrite IHk; lia).
      apply W. }
    destruct (feat_le e); auto.
  - apply Forall_forall. intros x Hx. apply repeat_spec in Hx. subst. unfold is_byte. lia.
Qed.

Lemma null_read_u e s :
  (pointer s + 1 < usize_lim e -> read_u8 (null_io e) s = (Ok 0, mkNull (pointer s + 1) (used_space s))) /\
  (pointer s + 2 < usize_lim e -> read_u16 e (null_io e) s = (Ok 0, mkNull (pointer s + 2) (used_space s))) /\
  (pointer s + 4 < usize_lim e -> read_u32 e (null_io e) s = (Ok 0, mkNull (pointer s + 4) (used_space s))) /\
  (pointer s + 8 < usize_lim e -> read_u64 e (null_io e) s = (Ok 0, mkNull (pointer s + 8) (used_space s))).
Proof.
  repeat split; intros H.
  - unfold read_u8. rewrite null_read_array by exact H. reflexivity.
  - unfold read_u16. rewrite null_read_array by exact H. cbn [bind]. rewrite adjust_zero. reflexivity.
  - unfold read_u32. rewrite null_read_array by exact H. cbn [bind]. rewrite adjust_zero. reflexivity.
  - unfold read_u64. rewrite null_read_array by exact H. cbn [bind]. rewrite adjust_zero. reflexivity.
Qed.

Lemma s15_zero e : s15f16_to_f64 e (u32_to_i32 0) = Some (f64_of_int 0).
Proof. destruct e as [[] [] [] [] []]; vm_compute; reflexivity. Qed.

Lemma null_read_f32 e s : pointer s + 4 < usize_lim e ->
  read_f32 e (null_io e) s = (Ok (f32_of_bits 0), mkNull (pointer s + 4) (used_space s)).
Proof. intros H. unfold read_f32. destruct (null_read_u e s) as (_ & _ & R & _). rewrite R by exact H. reflexivity. Qed.

Lemma null_read_s15 e s : pointer s + 4 < usize_lim e ->
  read_s15f16 e (null_io e) s = (Ok (f64_of_int 0), mkNull (pointer s + 4) (used_space s)).
Proof.
  intros H. unfold read_s15f16. destruct (null_read_u e s) as (_ & _ & R & _). rewrite R by exact H.
  cbn [bind]. rewrite s15_zero. reflexivity.
Qed.

Lemma null_read_xyz e s : 0 <= pointer s -> pointer s + 12 < usize_lim e ->
  read_xyz e (null_io e) s =
  (Ok (mkXYZ (f64_of_int 0) (f64_of_int 0) (f64_of_int 0)), mkNull (pointer s + 12) (used_space s)).
Proof.
  intros Hp H. unfold read_xyz.
  rewrite null_read_s15 by lia. cbn [bind].
  rewrite null_read_s15 by (cbn [pointer]; lia). cbn [bind pointer].
  rewrite null_read_s15 by (cbn [pointer]; lia). cbn [bind pointer used_space].
  do 2 f_equal. lia.
Qed.

(** ** Position arithmetic *)
Lemma null_seek_eq e s pos : null_wf e s -> call_ok (CSeek pos) ->
  let base := match pos with SeekStart _ => 0 | SeekEnd _ => used_space s | SeekCurrent _ => pointer s end in
  let off := match pos with SeekStart n | SeekEnd n | SeekCurrent n => n end in
  null_seek e s pos =
  if ovf e && (usize_lim e <=? base + off mod usize_lim e)
  then (Panic, s)
  else (Ok tt, mkNull ((base + off) mod usize_lim e) (used_space s)).
Proof.
  intros [Hp Hu] Hc base off. pose proof (usize_lim_pos e) as L.
  assert (G : forall b n, 0 <= b < usize_lim e ->
    match usize_add e b (as_usize e n) with
    | Some p => (Ok tt, mkNull p (used_space s)) | None => (Panic, s) end =
    if ovf e && (usize_lim e <=? b + n mod usize_lim e) then (Panic, s)
    else (Ok tt, mkNull ((b + n) mod usize_lim e) (used_space s))).
  { intros b n Hb. unfold usize_add, as_usize. pose proof (Z.mod_pos_bound n (usize_lim e) L).
    destruct (b + n mod usize_lim e <? usize_lim e) eqn:E1.
    - replace (usize_lim e <=? b + n mod usize_lim e) with false by lia. rewrite andb_false_r.
      rewrite <- (Z.mod_small (b + n mod usize_lim e) (usize_lim e)) by lia.
      now rewrite Zplus_mod_idemp_r.
    - replace (usize_lim e <=? b + n mod usize_lim e) with true by lia. rewrite andb_true_r.
      destruct (ovf e); [reflexivity|]. now rewrite Zplus_mod_idemp_r. }
  destruct pos; subst base off; cbn [null_seek].
  - rewrite !Z.add_0_l. unfold as_usize. pose proof (Z.mod_pos_bound n (usize_lim e) L).
    replace (usize_lim e <=? n mod usize_lim e) with false by lia. rewrite andb_false_r. reflexivity.
  - apply G. exact Hu.
  - apply G. exact Hp.
Qed.

Lemma null_move_eq e s n : null_wf e s -> 
  null_read e s n =
    (if ovf e && (usize_lim e <=? pointer s + zlen n) then (Panic, s, n)
     else (Ok tt, mkNull ((pointer s + zlen n) mod usize_lim e) (used_space s), n)) /\
  null_write e s n =
    (if ovf e && (usize_lim e <=? pointer s + zlen n) then (Panic, s)
     else let p := (pointer s + zlen n) mod usize_lim e in (Ok tt, mkNull p (Z.max (used_space s) p))).
Proof.
  intros [Hp Hu]. pose proof (zlen_nonneg n). unfold null_read, null_write, usize_add. fold (zlen n).
  assert (X : forall u p, (if u <? p then p else u) = Z.max u p) by (intros; destruct (u <? p) eqn:?; lia).
  destruct (pointer s + zlen n <? usize_lim e) eqn:E1.
  - replace (usize_lim e <=? pointer s + zlen n) with false by lia. rewrite andb_false_r.
    rewrite Z.mod_small by lia. rewrite X. auto.
  - replace (usize_lim e <=? pointer s + zlen n) with true by lia. rewrite andb_true_r.
    destruct (ovf e); [auto|]. rewrite X. auto.
Qed.

(** The readable cases of [null_seek_eq] on a 64-bit target. *)
Lemma null_seek_cases e s pos : is64 e = true -> null_wf e s -> call_ok (CSeek pos) ->
  let base := match pos with SeekStart _ => 0 | SeekEnd _ => used_space s | SeekCurrent _ => pointer s end in
  let off := match pos with SeekStart n | SeekEnd n | SeekCurrent n => n end in
  (0 <= off -> base + off < 2 ^ 64 -> null_seek e s pos = (Ok tt, mkNull (base + off) (used_space s))) /\
  (off < 0 -> 0 <= base + off -> ovf e = false -> null_seek e s pos = (Ok tt, mkNull (base + off) (used_space s))) /\
  (off < 0 -> 0 <= base + off -> ovf e = true -> fst (null_seek e s pos) = Panic) /\
  (off < 0 -> base + off < 0 -> null_seek e s pos = (Ok tt, mkNull (2 ^ 64 + (base + off)) (used_space s))).
Proof.
  intros H64 Hwf Hc base off. pose proof (null_seek_eq e s pos Hwf Hc) as E. cbv zeta in E. fold base off in E.
  destruct (is64_lims e H64) as [EU _]. destruct Hwf as [Hp Hu]. rewrite EU in *.
  assert (B : 0 <= base < 2 ^ 64) by (subst base; destruct pos; lia).
  assert (O : - 2 ^ 63 <= off < 2 ^ 64) by (subst off; destruct pos; cbn in Hc; lia).
  rewrite E. clearbody base off. repeat split; intros.
  - rewrite (Z.mod_small off) by lia. replace (2 ^ 64 <=? base + off) with false by lia.
    rewrite andb_false_r, Z.mod_small by lia. reflexivity.
  - rewrite H1. cbn [andb]. rewrite Z.mod_small by lia. reflexivity.
  - rewrite H1. replace (off mod 2 ^ 64) with (off + 2 ^ 64)
      by (rewrite <- (Z.mod_small (off + 2 ^ 64) (2 ^ 64)) by lia; now rewrite <- Zplus_mod_idemp_r, Z_mod_same_full, Z.add_0_r).
    replace (2 ^ 64 <=? base + (off + 2 ^ 64)) with true by lia. reflexivity.
  - replace (off mod 2 ^ 64) with (off + 2 ^ 64)
      by (rewrite <- (Z.mod_small (off + 2 ^ 64) (2 ^ 64)) by lia; now rewrite <- Zplus_mod_idemp_r, Z_mod_same_full, Z.add_0_r).
    replace (2 ^ 64 <=? base + (off + 2 ^ 64)) with false by lia. rewrite andb_false_r.
    replace ((base + off) mod 2 ^ 64) with (2 ^ 64 + (base + off)); [reflexivity|].
    rewrite <- (Z.mod_small (2 ^ 64 + (base + off)) (2 ^ 64)) by lia.
    now rewrite <- Zplus_mod_idemp_l, Z_mod_same_full, Z.add_0_l.
Qed.

(** ** Dry run *)
Definition dry_rel (n : FileNull) (m : FileMem) : Prop :=
  growable m = true /\ pointer n = mem_pos m /\ used_space n = zlen (mem_data m).

Lemma dry_step e c n m a : is64 e = true -> dry_rel n m -> mem_wf e m -> call_ok c -> dry_ok e c ->
  fst (call_on (mem_io e) c m) = Ok a ->
  fst (call_on (null_io e) c n) = blank (Ok a) /\
  dry_rel (snd (call_on (null_io e) c n)) (snd (call_on (mem_io e) c m)) /\
  mem_wf e (snd (call_on (mem_io e) c m)).
Proof.
  intros H64 (G & EP & EU) Hwf Hc Hd Hok.
  destruct (is64_lims e H64) as [LU LI]. pose proof Hwf as [Hp Hl].
  pose proof (zlen_nonneg (mem_data m)) as Hz. unfold off_max in LI.
  assert (Nwf : null_wf e n) by (split; rewrite ?EP, ?EU, LU; lia).
  assert (W3 : mem_wf e (snd (call_on (mem_io e) c m))).
  { destruct (mem_step e c m (a_of (mem_data m) (mem_pos m)) Hc Hwf) as (_ & _ & W); [|exact W].
    split; [exact G|apply a_same_refl]. }
  enough (fst (call_on (null_io e) c n) = blank (Ok a) /\
    dry_rel (snd (call_on (null_io e) c n)) (snd (call_on (mem_io e) c m))) by tauto.
  clear W3.
  destruct c as [k|bs|p| |]; unfold call_on in *.
  - rewrite read_array_mem in * by lia.
    destruct ((k =? 0)%nat || (mem_pos m + Z.of_nat k <=? zlen (mem_data m))) eqn:E; cbn [fst snd map_res] in *; [|discriminate].
    injection Hok as <-. assert (pointer n + Z.of_nat k < usize_lim e) by (rewrite LU; destruct (Nat.eqb_spec k 0); lia).
    rewrite null_read_array by assumption. cbn [fst snd map_res blank].
    split.
    + do 3 f_equal. rewrite firstn_length, skipn_length. unfold zlen in E. lia.
    + repeat split; cbn; auto. lia.
  - cbn [io_write mem_io null_io] in *. cbn [dry_ok] in Hd. rewrite mem_write_vec in * by assumption.
    destruct (usize_lim e <=? mem_pos m) eqn:E1; cbn [fst snd map_res] in *; [discriminate|].
    destruct (isize_max e <? mem_pos m + zlen bs) eqn:E2; cbn [fst snd map_res] in *; [discriminate|].
    injection Hok as <-. destruct (null_move_eq e n bs Nwf) as [_ ->].
    rewrite LI in E2. pose proof (zlen_nonneg bs).
    replace (usize_lim e <=? pointer n + zlen bs) with false by (rewrite LU; lia). rewrite andb_false_r.
    cbv zeta. rewrite Z.mod_small by (rewrite LU; lia). cbn [fst snd map_res blank].
    split; [reflexivity|]. repeat split; cbn [pointer used_space mem_pos mem_data]; [lia|].
    rewrite store_at_length by lia. lia.
  - cbn [io_seek mem_io null_io] in *.
    pose proof (mem_seek_exact m p Hc Hp) as EM. cbv zeta in EM. rewrite EM in *. clear EM.
    pose proof (null_seek_cases e n p H64 Nwf Hc) as (N1 & N2 & _ & _).
    rewrite EP, EU in N1, N2.
    destruct p as [v|v|v]; cbn [dry_ok call_ok] in *;
      match type of Hok with context [if ?b then _ else _] => destruct b eqn:E end;
      cbn [fst snd map_res] in *; try discriminate; injection Hok as <-;
      (destruct (Z_lt_le_dec v 0) as [Hv|Hv];
       [ first [exfalso; lia | rewrite N2 by (first [lia | destruct Hd; [assumption|lia]])] | rewrite N1 by lia ]);
      cbn [fst snd map_res blank]; (split; [reflexivity|]); repeat split; auto.
  - cbn [io_tell mem_io null_io] in *. unfold mem_tell, null_tell in *. cbn [fst snd map_res] in *.
    injection Hok as <-. unfold as_usize. rewrite Z.mod_small by (rewrite LU; lia). cbn [blank].
    rewrite EP. split; [reflexivity|]. repeat split; auto.
  - rewrite reported_size_mem in * by assumption. cbn [fst snd map_res] in *. injection Hok as <-.
    unfold reported_size. cbn [io_tell io_seek null_io]. unfold null_tell. cbn [bind].
    pose proof (null_seek_cases e n (SeekEnd 0) H64 Nwf ltac:(cbn; lia)) as (N1 & _). cbv zeta in N1.
    rewrite N1 by lia. clear N1. cbn [bind pointer used_space null_seek]. unfold as_usize.
    rewrite !Z.mod_small by (rewrite LU; lia). cbn [fst snd map_res blank].
    split; [do 2 f_equal; lia|]. repeat split; auto.
Qed.

Lemma dry_run e cs : is64 e = true -> forall n m, dry_rel n m -> mem_wf e m ->
  Forall call_ok cs -> Forall (dry_ok e) cs -> 
  all_ok (fst (run_calls (call_on (mem_io e)) cs m)) ->
  fst (run_calls (call_on (null_io e)) cs n) = map blank (fst (run_calls (call_on (mem_io e)) cs m)) /\
  dry_rel (snd (run_calls (call_on (null_io e)) cs n)) (snd (run_calls (call_on (mem_io e)) cs m)).
Proof.
  intros H64. induction cs as [|c cs IH]; intros n m HR Hwf Hc Hd Hok; [split; [reflexivity|exact HR]|].
  inversion Hc; inversion Hd; subst. cbn [run_calls] in *.
  destruct (call_on (mem_io e) c m) as [x m'] eqn:Ex.
  assert (exists a, x = Ok a) as [a ->].
  { destruct x; [eexists; reflexivity| |].
    - destruct (run_calls (call_on (mem_io e)) cs m'). cbn in Hok. now inversion Hok.
    - cbn in Hok. now inversion Hok. }
  destruct (dry_step e c n m a H64 HR Hwf) as (S1 & S2 & S3); try assumption; [now rewrite Ex|].
  rewrite Ex in *. cbn [fst snd] in *.
  destruct (call_on (null_io e) c n) as [y n']. cbn [fst snd] in *. subst y.
  specialize (IH n' m' S2 S3 ltac:(assumption) ltac:(assumption)).
  destruct (run_calls (call_on (mem_io e)) cs m') as [xs m''],
           (run_calls (call_on (null_io e)) cs n') as [ys n'']. cbn [fst snd] in *.
  assert (all_ok xs) as Hxs by (now inversion Hok).
  destruct (IH Hxs) as [-> ?]. destruct a; cbn [blank fst snd map]; auto.
Qed.

Lemma dry_run_from_empty e cs : is64 e = true -> Forall call_ok cs -> Forall (dry_ok e) cs ->
  let '(answers, m) := run_calls (call_on (mem_io e)) cs (mem_new true []) in
  let '(answers', n) := run_calls (call_on (null_io e)) cs null_new in
  (forall x, In x answers -> exists a, x = Ok a) ->
  answers' = map blank answers /\ pointer n = mem_pos m /\ used_space n = zlen (mem_data m).
Proof.
  intros H64 Hc Hd. pose proof (dry_run e cs H64 null_new (mem_new true [])) as H.
  destruct (run_calls (call_on (mem_io e)) cs (mem_new true [])) as [xs m],
           (run_calls (call_on (null_io e)) cs null_new) as [ys n]. cbn [fst snd] in H.
  intros Hok. destruct H as [H1 (_ & H2 & H3)]; auto.
  - repeat split.
  - split; cbn [mem_new mem_data mem_pos]; [lia|]. change (zlen []) with 0.
    destruct (isize_max_cases e) as [[E _]|[E _]]; rewrite E; lia.
  - apply Forall_forall. exact Hok.
Qed.
