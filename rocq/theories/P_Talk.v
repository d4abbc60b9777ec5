(** Proofs: the typed transfers as conversations with any handler (C107). *)
From Coq Require Import ZArith Reals List Lia Lra.
From Flocq Require Import Core IEEE754.BinarySingleNaN.
From Verif Require Import M_Base M_F64 M_Endian M_IO M_FileMem M_FileNull M_FileFile S_Bytes S_S15 S_Talk P_Endian P_Typed P_IOProps P_S15 P_S15IO.
Import ListNotations.
Local Open Scope Z_scope.

Section Talk.
  Context {S : Type} (e : env) (h : IOHandler S) (I : S -> Prop).
  Local Notation b := (feat_le e).

  Lemma uint_read n rd : sane h I ->
    (n, rd) = (1%nat, read_u8 h) \/ (n, rd) = (2%nat, read_u16 e h) \/ (n, rd) = (4%nat, read_u32 e h) \/ (n, rd) = (8%nat, read_u64 e h) ->
    does h I (uint_in b n) rd.
  Proof.
    intros K J s HI. pose proof (typed_reads e h n rd s J) as T. unfold read_array in T. cbn [follows uint_in].
    destruct (io_read h s (repeat 0 n)) as ((r & s1) & l) eqn:E. destruct (K _ _ _ _ _ HI E) as (L & B & HI1).
    destruct r; cbn [go gives follows]; [rewrite (T L B)|rewrite T|rewrite T]; cbn [fst snd]; auto.
  Qed.
  Lemma read4 s : sane h I -> I s -> match io_read h s (repeat 0 4) with
    | (Ok _, s1, l) => read_u32 e h s = (Ok (wire_value b l), s1) /\ is_uint 4 (wire_value b l) /\ I s1
    | (Err k, s1, _) => read_u32 e h s = (Err k, s1)
    | (Panic, s1, _) => read_u32 e h s = (Panic, s1) end.
  Proof.
    intros K HI. pose proof (typed_reads e h 4 (read_u32 e h) s ltac:(auto)) as T. unfold read_array in T.
    destruct (io_read h s (repeat 0 4)) as ((r & s1) & l) eqn:E. destruct (K _ _ _ _ _ HI E) as (L & B & HI1).
    destruct r; auto. split; [auto|]. split; [|exact HI1]. rewrite <- L. now apply wire_value_uint.
  Qed.
  Lemma float_read : sane h I -> does h I (float_in b) (read_f32 e h).
  Proof.
    intros K s HI. pose proof (read4 s K HI) as T. unfold read_f32. cbn [follows float_in].
    destruct (io_read h s (repeat 0 4)) as (([u|k|] & s1) & l); [destruct T as (T & _)|..]; rewrite T; cbn; auto.
  Qed.
  Lemma fixed_step {A} (k : Z -> talk A) (m : f64 -> S -> res A * S) s : sane h I -> I s ->
    (forall w x s1, fixed x w -> I s1 -> follows h (k w) s1 (fst (m x s1)) (snd (m x s1))) ->
    let r := bind (read_s15f16 e h s) m in follows h (fixed_in b (ovf e) k) s (fst r) (snd r).
  Proof.
    intros K HI F. cbv zeta. pose proof (read4 s K HI) as T. unfold read_s15f16. cbn [follows fixed_in].
    destruct (io_read h s (repeat 0 4)) as (([u|er|] & s1) & l); [destruct T as (T & U & HI1)|..]; rewrite T; cbn [bind go gives follows fst snd]; auto.
    assert (R : u32_to_i32 (wire_value b l) = signed (wire_value b l)) by (unfold u32_to_i32, signed; reflexivity).
    assert (RG : - 2 ^ 31 <= signed (wire_value b l) < 2 ^ 31).
    { unfold is_uint in U. change (256 ^ Z.of_nat 4) with (2 ^ 32) in U. unfold signed. destruct (_ <? _) eqn:Q; lia. }
    destruct (s15f16_to_f64 e (u32_to_i32 (wire_value b l))) as [x|] eqn:D.
    - assert (N : ovf e && (wire_value b l =? 2 ^ 31) = false).
      { destruct (ovf e) eqn:O; [|reflexivity]. cbn [andb]. apply Z.eqb_neq. intros Q.
        assert (s15f16_to_f64 e (u32_to_i32 (wire_value b l)) = None); [|congruence].
        rewrite R. apply dec_panics; [exact RG|]. split; [exact O|]. rewrite Q. reflexivity. }
      rewrite N. cbn [bind]. apply F; [|exact HI1].
      destruct (dec_exact e (u32_to_i32 (wire_value b l))) as (x' & D' & FX & V).
      + now rewrite R.
      + intros O Q. rewrite (proj2 (dec_panics e (u32_to_i32 (wire_value b l)) ltac:(now rewrite R))) in D by auto. discriminate D.
      + rewrite D' in D. assert (x' = x) by congruence. subst x'. split; [exact FX|]. now rewrite <- R.
    - apply dec_panics in D as (O & Q); [|now rewrite R]. rewrite O. cbn [andb bind fst snd].
      assert (Q' : wire_value b l = 2 ^ 31).
      { rewrite R in Q. unfold is_uint in U. change (256 ^ Z.of_nat 4) with (2 ^ 32) in U. unfold signed in Q. destruct (_ <? _) eqn:W; lia. }
      rewrite Q'. cbn. auto.
  Qed.
  Lemma number_read : sane h I -> does h I (number_in b (ovf e)) (read_s15f16 e h).
  Proof.
    intros K s HI. pose proof (fixed_step (fun w => Ends (fun r => exists x, r = Ok x /\ fixed x w)) (fun x s1 => (Ok x, s1)) s K HI) as F.
    replace (read_s15f16 e h s) with (bind (read_s15f16 e h s) (fun x s1 => (Ok x, s1))).
    - apply F. intros w x s1 X _. cbn. eauto.
    - destruct (read_s15f16 e h s) as ([| |] & ?); reflexivity.
  Qed.
  Lemma xyz_read : sane h I -> does h I (xyz_in b (ovf e)) (read_xyz e h).
  Proof.
    intros K s HI. unfold read_xyz. apply fixed_step; [exact K|exact HI|]. intros w x s1 X HI1. apply fixed_step; [exact K|exact HI1|]. intros w' y s2 Y HI2.
    apply fixed_step; [exact K|exact HI2|]. intros w'' z s3 Z0 _. cbn. split; [reflexivity|]. eexists. split; [reflexivity|]. auto.
  Qed.

  Lemma uint_write n v wr :
    (n, wr) = (1%nat, write_u8 h) \/ (n, wr) = (2%nat, write_u16 e h) \/ (n, wr) = (4%nat, write_u32 e h) \/ (n, wr) = (8%nat, write_u64 e h) ->
    is_uint n v -> does h always (uint_out b n v) (wr v).
  Proof.
    intros J U s _. assert (W : wr v s = io_write h s (wire_enc b n v)).
    { destruct J as [J|[J|[J|J]]]; injection J as -> ->.
      - rewrite write_u8_bytes. f_equal. unfold wire_enc, little_enc, big_enc, is_uint in *. change (256 ^ Z.of_nat 1) with 256 in U.
        destruct b; cbn; unfold byte_of; rewrite Z.pow_0_r, Z.div_1_r, Z.mod_small by lia; reflexivity.
      - apply write_u16_bytes.
      - apply write_u32_bytes.
      - apply write_u64_bytes. }
    rewrite W. unfold uint_out. cbn [follows]. destruct (io_write h s (wire_enc b n v)) as ([[]|k|] & s1); cbn; auto.
  Qed.
  Lemma float_write x : does h always (uint_out b 4 (bits_of_f32 x)) (write_f32 e h x).
  Proof.
    intros s _. rewrite write_f32_bytes. unfold uint_out. cbn [follows]. destruct (io_write h s _) as ([[]|k|] & s1); cbn; auto.
  Qed.
  Lemma word_for_enc x : word_for x (f64_to_s15f16 x).
  Proof.
    assert (C : is_finite x = true -> (B2R x = odd_one -> f64_to_s15f16 x = 1) /\ (B2R x <> odd_one -> f64_to_s15f16 x = clip (Zfloor (65536 * B2R x + / 2)))).
    { intros F. split.
      - intros O. replace x with exc; [apply exc_facts|]. symmetry. apply exc_only; [exact F|]. destruct exc_value as (E & _). rewrite <- E, O.
        destruct exc_facts as (E' & _). rewrite E'. reflexivity.
      - intros N. rewrite enc_saturates; [unfold clip|exact F|].
        + destruct (Z.ltb_spec (Zfloor (65536 * B2R x + / 2)) (- 2 ^ 31)); [lia|]. destruct (Z.ltb_spec (2 ^ 31 - 1) (Zfloor (65536 * B2R x + / 2))); lia.
        + intros ->. apply N. destruct exc_facts as (E' & _). rewrite E'. reflexivity. }
    destruct x as [s|s| |s m q B]; [exact (C eq_refl)|apply enc_inf|apply enc_nan|exact (C eq_refl)].
  Qed.
  Lemma number_write x : exists w, word_for x w /\ does h always (uint_out b 4 (w mod 2 ^ 32)) (write_s15f16 e h x).
  Proof.
    exists (f64_to_s15f16 x). split; [apply word_for_enc|]. intros s _. rewrite write_s15f16_bytes. unfold uint_out. cbn [follows].
    destruct (io_write h s _) as ([[]|k|] & s1); cbn; auto.
  Qed.
  Lemma xyz_write v : exists x y z, word_for (xyz_X v) x /\ word_for (xyz_Y v) y /\ word_for (xyz_Z v) z /\ does h always (xyz_out b x y z) (write_xyz e h v).
  Proof.
    exists (f64_to_s15f16 (xyz_X v)), (f64_to_s15f16 (xyz_Y v)), (f64_to_s15f16 (xyz_Z v)).
    split; [apply word_for_enc|]. split; [apply word_for_enc|]. split; [apply word_for_enc|]. intros s _. unfold write_xyz, xyz_out, uint_out.
    rewrite write_s15f16_bytes. cbn [follows]. destruct (io_write h s _) as ([[]|k|] & s1); cbn [bind go gives follows fst snd]; auto.
    rewrite write_s15f16_bytes. destruct (io_write h s1 _) as ([[]|k|] & s2); cbn [bind go gives follows fst snd]; auto.
    rewrite write_s15f16_bytes. destruct (io_write h s2 _) as ([[]|k|] & s3); cbn [bind go gives follows fst snd]; auto.
  Qed.
  Lemma size_talk : does h always size_of (reported_size h).
  Proof.
    intros s _. unfold reported_size, size_of. cbn [follows].
    destruct (io_tell h s) as ([p|k|] & s1); cbn [bind go gives follows fst snd]; auto.
    destruct (io_seek h s1 (SeekEnd 0)) as ([[]|k|] & s2); cbn [bind go gives follows fst snd]; auto.
    destruct (io_tell h s2) as ([n|k|] & s3); cbn [follows gives fst snd]; auto;
      destruct (io_seek h s3 (SeekStart p)) as ([[]|k'|] & s4); cbn [bind go gives follows fst snd]; auto.
  Qed.
End Talk.

(** The handlers of the crate are sane while they hold bytes. *)
Lemma zeros_bytes n : are_bytes (repeat 0 n). Proof. apply Forall_forall. intros x I. apply repeat_spec in I. subst x. unfold is_byte. lia. Qed.
Lemma sub_bytes a n l : are_bytes l -> are_bytes (firstn n (skipn a l)).
Proof.
  intros B. apply Forall_forall. intros x I. apply (proj1 (Forall_forall _ _) B). rewrite <- (firstn_skipn a l). apply in_app_iff. right.
  rewrite <- (firstn_skipn n (skipn a l)). apply in_app_iff. now left.
Qed.
Lemma mem_sane e : sane (mem_io e) (fun s => are_bytes (mem_data s)).
Proof.
  intros s n r s' b B H. cbn [io_read mem_io] in H. unfold mem_read in H. rewrite repeat_length in H.
  destruct (_ <? _)%nat eqn:L; injection H as <- <- <-.
  - rewrite repeat_length. split; [reflexivity|]. split; [apply zeros_bytes|]. destruct (eof_moves e); exact B.
  - apply Nat.ltb_ge in L. split; [apply firstn_length_le; exact L|]. split; [now apply sub_bytes|exact B].
Qed.
Lemma null_sane e : sane (null_io e) always.
Proof.
  intros s n r s' b _ H. cbn [io_read null_io] in H. unfold null_read in H.
  destruct (usize_add _ _ _); injection H as <- <- <-; rewrite repeat_length; (split; [reflexivity|]; split; [apply zeros_bytes|exact Logic.I]).
Qed.
Lemma sys_read_sane s n : are_bytes (f_data s) -> forall q s1, sys_read s n = (q, s1) ->
  are_bytes (f_data s1) /\ match q with SysOk bs => are_bytes bs /\ (length bs <= n)%nat | _ => True end.
Proof.
  intros B q s1 Q. unfold sys_read in Q. destruct (negb (f_readable s)); [injection Q as <- <-; auto|].
  assert (A : forall ev rest, (ev_amount ev (Nat.min n rest) <= n)%nat) by (intros ev rest; destruct ev; cbn [ev_amount]; lia).
  destruct (ev_head (f_sched s)) eqn:E; apply pair_equal_spec in Q as (<- & <-); (split; [exact B|]); auto; (split; [now apply sub_bytes|]);
    rewrite firstn_length; eapply Nat.le_trans; [apply Nat.le_min_l|apply A|apply Nat.le_min_l|apply A].
Qed.
Lemma file_loop_sane fuel : forall s got todo r s' b, are_bytes (f_data s) -> are_bytes got -> are_bytes todo ->
  read_exact_loop fuel s got todo = (r, s', b) -> length b = (length got + length todo)%nat /\ are_bytes b /\ are_bytes (f_data s').
Proof.
  induction fuel as [|f IH]; intros s got todo r s' b B G T H.
  - destruct todo; cbn in H; injection H as <- <- <-; [cbn; rewrite Nat.add_0_r; auto|]. rewrite app_length. split; [reflexivity|]. split; [now apply Forall_app|exact B].
  - destruct todo as [|t rest]; [cbn in H; injection H as <- <- <-; cbn; rewrite Nat.add_0_r; auto|].
    set (todo := t :: rest) in *. change (read_exact_loop (S f) s got todo) with
      (match sys_read s (length todo) with
       | (SysOk [], s') => (Err UnexpectedEof, s', got ++ todo)
       | (SysOk bs, s') => read_exact_loop f s' (got ++ bs) (skipn (length bs) todo)
       | (SysIntr, s') => read_exact_loop f s' got todo
       | (SysFail, s') => (Err OsError, s', got ++ todo) end) in H.
    pose proof (sys_read_sane s (length todo) B) as R.
    destruct (sys_read s (length todo)) as ([bs| |] & s1); destruct (R _ _ eq_refl) as (B1 & R1).
    + destruct bs as [|c bs]; [injection H as <- <- <-; rewrite app_length; split; [reflexivity|]; split; [now apply Forall_app|exact B1]|].
      destruct R1 as (RB & RL). apply IH in H as (L & BB & B2); [|exact B1|now apply Forall_app|].
      * rewrite app_length, skipn_length in L. split; [lia|auto].
      * rewrite <- (firstn_skipn (length (c :: bs)) todo) in T. now apply Forall_app in T.
    + now apply IH in H.
    + injection H as <- <- <-. rewrite app_length. split; [reflexivity|]. split; [now apply Forall_app|exact B1].
Qed.
Lemma file_sane e : sane (file_io e) (fun s => are_bytes (f_data s)).
Proof.
  intros s n r s' b B H. cbn [io_read file_io] in H. unfold file_read in H. apply file_loop_sane in H as (L & H); [|exact B|constructor|apply zeros_bytes].
  rewrite repeat_length in L. auto.
Qed.
