(** FileMem. *)
From Coq Require Import ZifyBool.
From Verif Require Import M_Base M_IO M_FileMem M_FileFile S_Bytes S_File P_List.

(** Reachable shape: the position is a u64, the buffer fits in memory. *)
Definition mem_wf (e : env) (s : FileMem) : Prop :=
  0 <= mem_pos s < 2 ^ 64 /\ zlen (mem_data s) <= isize_max e.

Lemma usize_lim_cases e : usize_lim e = 2 ^ 32 \/ usize_lim e = 2 ^ 64.
Proof. unfold usize_lim, usize_bits. destruct (is64 e); auto. Qed.
Lemma isize_max_cases e : isize_max e = 2 ^ 31 - 1 /\ usize_lim e = 2 ^ 32 \/
                          isize_max e = 2 ^ 63 - 1 /\ usize_lim e = 2 ^ 64.
Proof. unfold isize_max, usize_lim, usize_bits. destruct (is64 e); auto. Qed.

Lemma zlen_nonneg l : 0 <= zlen l.
Proof. unfold zlen. lia. Qed.

(** ** Writes *)

Lemma store_at_splice d p b : store_at d p b = splice (d ++ repeat 0 (Z.to_nat (p - zlen d))) (Z.to_nat p) b.
Proof. reflexivity. Qed.

Lemma padded_len d p : 0 <= p -> (Z.to_nat p <= length (d ++ repeat 0%Z (Z.to_nat (p - zlen d))))%nat.
Proof. intros. rewrite app_length, repeat_length. unfold zlen. lia. Qed.

Lemma store_at_length d p b : 0 <= p -> zlen (store_at d p b) = Z.max (zlen d) (p + zlen b).
Proof.
  intros. rewrite store_at_splice. unfold zlen at 1. rewrite length_splice by now apply padded_len.
  rewrite app_length, repeat_length. unfold zlen. lia.
Qed.

Lemma nth_repeat0 n i : nth i (repeat 0 n) 0 = 0.
Proof. revert i; induction n; destruct i; simpl; auto. Qed.

Lemma nth_padded d n i : nth i (d ++ repeat 0 n) 0 = nth i d 0.
Proof.
  destruct (Nat.ltb_spec i (length d)).
  - now apply app_nth1.
  - rewrite app_nth2, nth_repeat0, nth_overflow by lia. reflexivity.
Qed.

Lemma nth_store_at d p b i : 0 <= p ->
  nth i (store_at d p b) 0 =
  if (p <=? Z.of_nat i) && (Z.of_nat i <? p + zlen b) then nth (i - Z.to_nat p) b 0 else nth i d 0.
Proof.
  intros. rewrite store_at_splice, nth_splice by now apply padded_len.
  rewrite !nth_padded. unfold zlen in *.
  destruct (Nat.ltb_spec i (Z.to_nat p)), (Nat.ltb_spec i (Z.to_nat p + length b));
    destruct ((p <=? Z.of_nat i) && (Z.of_nat i <? p + Z.of_nat (length b))) eqn:E; auto; lia.
Qed.

Lemma mem_write_nil e s : growable s && pads_empty e = false -> mem_write e s [] = (Ok tt, s).
Proof. unfold mem_write. intros ->. reflexivity. Qed.

(** A growable buffer takes everything in one step. *)
Lemma mem_write_vec e s b : growable s = true -> b <> [] \/ pads_empty e = true ->
  mem_write e s b =
  if usize_lim e <=? mem_pos s then (Err InvalidInput, s)
  else if isize_max e <? mem_pos s + zlen b then (Panic, s)
  else (Ok tt, mkMem true (store_at (mem_data s) (mem_pos s) b) (mem_pos s + zlen b)).
Proof.
  intros G Hb. unfold mem_write. rewrite G. cbn [andb]. destruct (pads_empty e) eqn:PE.
  { unfold vec_write. destruct (usize_lim e <=? mem_pos s); [reflexivity|].
    destruct (isize_max e <? mem_pos s + zlen b); reflexivity. }
  destruct Hb as [Hb|Hb]; [|discriminate]. destruct b as [|x b]; [easy|].
  cbn [mem_write_all]. unfold mem_write_once. rewrite G. unfold vec_write.
  destruct (usize_lim e <=? mem_pos s); [reflexivity|].
  destruct (isize_max e <? mem_pos s + zlen (x :: b)); [reflexivity|].
  replace (zlen (x :: b) =? 0) with false by (unfold zlen; simpl length; lia).
  replace (skipn (Z.to_nat (zlen (x :: b))) (x :: b)) with (@nil Z).
  2:{ unfold zlen. rewrite Nat2Z.id. symmetry. now apply skipn_all2. }
  destruct b; reflexivity.
Qed.

(** One write on a fixed buffer. *)
Definition room (s : FileMem) : nat := (length (mem_data s) - Z.to_nat (mem_pos s))%nat.

Lemma slice_write_eq s b : 0 <= mem_pos s ->
  let k := Nat.min (length b) (room s) in
  slice_write s b =
  (Ok (Z.of_nat k),
   mkMem false (if (room s =? 0)%nat then mem_data s else splice (mem_data s) (Z.to_nat (mem_pos s)) (firstn k b))
         (mem_pos s + Z.of_nat k)).
Proof.
  intros Hp k. unfold slice_write, zlen.
  assert (Ek : Nat.min (length b)
     (length (mem_data s) - Z.to_nat (Z.min (mem_pos s) (Z.of_nat (length (mem_data s))))) = k)
    by (unfold k, room; lia).
  rewrite Ek. f_equal. f_equal.
  destruct (Nat.eqb_spec (room s) 0) as [E|E].
  - assert (k = 0%nat) by (unfold k; lia).
    rewrite H. simpl. rewrite Nat.add_0_r. apply firstn_skipn.
  - unfold room in E. unfold splice. rewrite firstn_length.
    replace (Z.to_nat (Z.min (mem_pos s) (Z.of_nat (length (mem_data s))))) with (Z.to_nat (mem_pos s)) by lia.
    replace (Nat.min k (length b)) with k by (unfold k; lia). reflexivity.
Qed.

Lemma mem_write_slice e s b : growable s = false -> 0 <= mem_pos s -> b <> [] ->
  let k := Nat.min (length b) (room s) in
  mem_write e s b =
  (if (length b <=? room s)%nat then Ok tt else Err WriteZero,
   mkMem false (if (room s =? 0)%nat then mem_data s else splice (mem_data s) (Z.to_nat (mem_pos s)) (firstn k b))
         (mem_pos s + Z.of_nat k)).
Proof.
  intros G Hp Hb k. unfold mem_write. rewrite G. cbn [andb]. destruct b as [|x b']; [easy|]. set (b := x :: b') in *.
  assert (Lb : (1 <= length b)%nat) by (simpl; lia).
  change (mem_write_all e (S (length b)) s b) with
    (match mem_write_once e s b with
     | (Ok n, s') => if n =? 0 then (Err WriteZero, s')
                     else mem_write_all e (length b) s' (skipn (Z.to_nat n) b)
     | (Err er, s') => (Err er, s')
     | (Panic, s') => (Panic, s')
     end).
  unfold mem_write_once. rewrite G. pose proof (slice_write_eq s b Hp) as E. cbv zeta in E.
  fold k in E. rewrite E. clear E.
  destruct (Z.eqb_spec (Z.of_nat k) 0) as [Ek|Ek].
  - assert (room s = 0%nat) by (unfold k in Ek; lia).
    rewrite H. destruct (Nat.leb_spec (length b) 0); [lia|reflexivity].
  - rewrite Nat2Z.id.
    destruct (Nat.leb_spec (length b) (room s)) as [L|L].
    + assert (k = length b) by (unfold k; lia). rewrite skipn_all2 by lia.
      destruct (length b); reflexivity.
    + assert (Hk : k = room s) by (unfold k; lia).
      destruct (skipn k b) as [|y c] eqn:Es.
      { exfalso. assert (length (skipn k b) = 0%nat) by now rewrite Es.
        rewrite skipn_length in H. lia. }
      destruct (length b) as [|m] eqn:El; [lia|].
      cbn [mem_write_all]. unfold mem_write_once. cbn [growable].
      match goal with |- context [slice_write ?s2 ?c2] => set (s' := s2); set (c' := c2) end.
      pose proof (slice_write_eq s' c') as E2. cbv zeta in E2.
      assert (R0 : room s' = 0%nat).
      { unfold room, s'. cbn [mem_data mem_pos]. unfold room in Hk, L.
        destruct (Nat.eqb_spec (room s) 0); unfold room in *; [lia|].
        rewrite length_splice by lia. rewrite firstn_length. lia. }
      rewrite E2 by (unfold s'; cbn [mem_pos]; lia). rewrite R0, Nat.min_0_r.
      rewrite Z.eqb_refl. f_equal. unfold s'. cbn [mem_data mem_pos]. simpl. f_equal. lia.
Qed.

(** [mem_write]'s fuel always suffices: a panic can only be the capacity overflow of a growable
    buffer. *)
Lemma mem_write_fuel e s b : 0 <= mem_pos s ->
  fst (mem_write e s b) = Panic ->
  growable s = true /\ (b <> [] \/ pads_empty e = true) /\ mem_pos s < usize_lim e /\ isize_max e < mem_pos s + zlen b.
Proof.
  intros Hp. destruct (growable s && pads_empty e) eqn:GP.
  { apply andb_prop in GP as [G PE]. rewrite mem_write_vec by auto.
    destruct (usize_lim e <=? mem_pos s) eqn:E1; [easy|].
    destruct (isize_max e <? mem_pos s + zlen b) eqn:E2; [|easy].
    intros _. repeat split; auto; lia. }
  destruct b as [|x b']; [rewrite mem_write_nil by exact GP; easy|]. set (b := x :: b').
  assert (Nb : b <> []) by easy.
  destruct (growable s) eqn:G.
  - rewrite mem_write_vec by auto.
    destruct (usize_lim e <=? mem_pos s) eqn:E1; [easy|].
    destruct (isize_max e <? mem_pos s + zlen b) eqn:E2; [|easy].
    intros _. repeat split; auto; lia.
  - pose proof (mem_write_slice e s b G Hp ltac:(easy)) as E. cbv zeta in E. rewrite E.
    cbn [fst]. destruct (length b <=? room s)%nat; discriminate.
Qed.

(** ** Reads *)
Lemma mem_read_eq e s buf : 0 <= mem_pos s ->
  mem_read e s buf =
  if (length buf =? 0)%nat || (mem_pos s + Z.of_nat (length buf) <=? zlen (mem_data s))
  then (Ok tt, mkMem (growable s) (mem_data s) (mem_pos s + Z.of_nat (length buf)),
        firstn (length buf) (skipn (Z.to_nat (mem_pos s)) (mem_data s)))
  else (Err UnexpectedEof,
        (if eof_moves e then mkMem (growable s) (mem_data s) (zlen (mem_data s)) else s), buf).
Proof.
  intros Hp. unfold mem_read. rewrite skipn_length. unfold zlen.
  set (n := length buf). set (d := mem_data s).
  destruct (Nat.ltb_spec (length d - Z.to_nat (Z.min (mem_pos s) (Z.of_nat (length d)))) n) as [L|L].
  - replace ((n =? 0)%nat || (mem_pos s + Z.of_nat n <=? Z.of_nat (length d))) with false by lia.
    reflexivity.
  - destruct (Nat.eqb_spec n 0) as [E|E]; [rewrite E; reflexivity|].
    replace (mem_pos s + Z.of_nat n <=? Z.of_nat (length d)) with true by lia.
    cbn [orb]. repeat f_equal. lia.
Qed.

Lemma read_array_mem e s n : 0 <= mem_pos s ->
  read_array (mem_io e) n s =
  if (n =? 0)%nat || (mem_pos s + Z.of_nat n <=? zlen (mem_data s))
  then (Ok (firstn n (skipn (Z.to_nat (mem_pos s)) (mem_data s))),
        mkMem (growable s) (mem_data s) (mem_pos s + Z.of_nat n))
  else (Err UnexpectedEof,
        if eof_moves e then mkMem (growable s) (mem_data s) (zlen (mem_data s)) else s).
Proof.
  intros. unfold read_array. cbn [io_read mem_io]. rewrite mem_read_eq by assumption.
  rewrite repeat_length.
  now destruct ((n =? 0)%nat || (mem_pos s + Z.of_nat n <=? zlen (mem_data s))).
Qed.

(** ** Sizes *)
Lemma reported_size_mem e s : mem_wf e s ->
  reported_size (mem_io e) s =
  (Ok (zlen (mem_data s)), mkMem (growable s) (mem_data s) (mem_pos s mod usize_lim e)).
Proof.
  intros [Hp Hl]. pose proof (zlen_nonneg (mem_data s)).
  unfold reported_size. cbn [io_tell io_seek mem_io]. unfold mem_tell, bind at 1.
  unfold mem_seek at 1. rewrite Z.add_0_r.
  assert (L : 0 <= zlen (mem_data s) < usize_lim e /\ usize_lim e <= 2 ^ 64)
    by (destruct (isize_max_cases e) as [[E1 E2]|[E1 E2]]; rewrite E2; lia).
  replace ((0 <=? zlen (mem_data s)) && (zlen (mem_data s) <? 2 ^ 64)) with true by lia.
  cbn [bind mem_seek growable mem_data mem_pos]. unfold as_usize.
  rewrite (Z.mod_small (zlen _)) by lia. reflexivity.
Qed.

(** ** Refinement of the abstract file *)
Definition mem_rep (s : FileMem) (a : afile) : Prop :=
  growable s = true /\ a_same (a_of (mem_data s) (mem_pos s)) a.

Lemma a_get_of d p i : 0 <= i -> a_get (a_of d p) i = nth (Z.to_nat i) d 0.
Proof.
  intros. unfold a_get, a_of. cbn [a_len a_byte].
  destruct ((0 <=? i) && (i <? Z.of_nat (length d))) eqn:E; [reflexivity|].
  rewrite nth_overflow by lia. reflexivity.
Qed.

Lemma a_get_same a b i : a_same a b -> a_get a i = a_get b i.
Proof.
  intros (L & _ & H). unfold a_get. rewrite <- L.
  destruct ((0 <=? i) && (i <? a_len a)) eqn:E; [|reflexivity]. apply H. lia.
Qed.

Lemma a_range_same a b n : a_same a b -> forall i, a_range a i n = a_range b i n.
Proof. intros H. induction n; intros; simpl; [reflexivity|]. rewrite IHn, (a_get_same a b i H). reflexivity. Qed.

Lemma a_range_of d p n : forall i, 0 <= i -> i + Z.of_nat n <= zlen d ->
  a_range (a_of d p) i n = firstn n (skipn (Z.to_nat i) d).
Proof.
  induction n; intros i Hi Hn; [reflexivity|].
  cbn [a_range]. rewrite IHn, a_get_of by lia.
  replace (Z.to_nat (i + 1)) with (S (Z.to_nat i)) by lia.
  assert (L : (Z.to_nat i < length d)%nat) by (unfold zlen in Hn; lia).
  generalize (Z.to_nat i) L. clear. intros k. revert d.
  induction k; intros; destruct d; simpl in *; try lia; [reflexivity|].
  rewrite <- IHk by lia. reflexivity.
Qed.

Lemma a_same_refl a : a_same a a.
Proof. repeat split. Qed.
Lemma a_same_trans a b c : a_same a b -> a_same b c -> a_same a c.
Proof.
  intros (L1 & P1 & H1) (L2 & P2 & H2). repeat split; [congruence|congruence|].
  intros. rewrite H1, H2 by lia. reflexivity.
Qed.
Lemma a_move_same a b p : a_same a b -> a_same (a_move a p) (a_move b p).
Proof. intros (L & P & H). repeat split; assumption. Qed.

Lemma a_store_same a b bs : a_same a b -> a_same (a_store a bs) (a_store b bs).
Proof.
  intros HS. pose proof HS as (L & P & H). unfold a_store. rewrite <- P, <- L.
  repeat split. cbn [a_len a_byte]. intros i Hi.
  destruct ((a_pos a <=? i) && (i <? a_pos a + Z.of_nat (length bs))); [reflexivity|].
  now apply a_get_same.
Qed.

Lemma a_of_store d p bs : 0 <= p ->
  a_same (a_of (store_at d p bs) (p + zlen bs)) (a_store (a_of d p) bs).
Proof.
  intros Hp. unfold a_same, a_store. cbn [a_len a_pos a_byte a_of].
  change (Z.of_nat (length (store_at d p bs))) with (zlen (store_at d p bs)).
  rewrite store_at_length by assumption. repeat split.
  intros i Hi. rewrite nth_store_at by assumption. rewrite Z2Nat.id by lia.
  unfold zlen. destruct ((p <=? i) && (i <? p + Z.of_nat (length bs))) eqn:E.
  - f_equal. lia.
  - change (mkA (Z.of_nat (length d)) (fun i0 : Z => nth (Z.to_nat i0) d 0) p) with (a_of d p).
    rewrite a_get_of by lia. reflexivity.
Qed.

Definition a_mem_call (e : env) := a_call (usize_lim e) (isize_max e) (eof_moves e) (pads_empty e).

Lemma mem_step e c s a : call_ok c -> mem_wf e s -> mem_rep s a ->
  fst (call_on (mem_io e) c s) = fst (a_mem_call e c a) /\
  mem_rep (snd (call_on (mem_io e) c s)) (snd (a_mem_call e c a)) /\
  mem_wf e (snd (call_on (mem_io e) c s)).
Proof.
  intros Hc Hwf [G HS]. pose proof Hwf as [Hp Hl]. pose proof HS as (EL & EP & EB).
  cbn [a_of a_len a_pos] in EL, EP. fold (zlen (mem_data s)) in EL.
  pose proof (zlen_nonneg (mem_data s)) as Hz.
  assert (HM : forall p, mem_rep (mkMem (growable s) (mem_data s) p) (a_move a p)).
  { intros p. split; [exact G|]. exact (a_move_same _ _ p HS). }
  assert (HW : forall p, 0 <= p < 2 ^ 64 -> mem_wf e (mkMem (growable s) (mem_data s) p)).
  { intros p Hpp. split; assumption. }
  assert (LL : zlen (mem_data s) < 2 ^ 64).
  { destruct (isize_max_cases e) as [[E1 E2]|[E1 E2]]; rewrite E1 in Hl; lia. }
  destruct c as [n|bs|p| |]; cbn [call_on a_mem_call]; unfold a_mem_call, a_call.
  - (* read *)
    rewrite read_array_mem by lia.
    destruct (Nat.eqb_spec n 0) as [->|Hn]; cbn [orb].
    { cbn [fst snd map_res firstn]. rewrite Z.add_0_r.
      replace (mkMem (growable s) (mem_data s) (mem_pos s)) with s by now destruct s.
      split; [reflexivity|]. split; [split; assumption | exact Hwf]. }
    rewrite <- EL, <- EP.
    destruct (mem_pos s + Z.of_nat n <=? zlen (mem_data s)) eqn:E; cbn [fst snd map_res].
    + split; [|split].
      * do 2 f_equal. rewrite <- (a_range_same _ _ n HS).
        symmetry. apply a_range_of; lia.
      * apply HM.
      * apply HW. lia.
    + destruct (eof_moves e); cbn [fst snd].
      * split; [reflexivity|]. split; [apply HM | apply HW; lia].
      * (split; [reflexivity|]; split; [split; assumption | exact Hwf]).
  - (* write *)
    cbn [io_write mem_io].
    destruct ((length bs =? 0)%nat && negb (pads_empty e)) eqn:N.
    { destruct bs; [|discriminate]. rewrite mem_write_nil by (destruct (pads_empty e); [discriminate|apply andb_false_r]).
      cbn [fst snd map_res]. split; [reflexivity|]; split; [split; assumption | exact Hwf]. }
    rewrite mem_write_vec by (try exact G; destruct bs, (pads_empty e); auto; left; easy). rewrite <- EP. fold (zlen bs).
    destruct (usize_lim e <=? mem_pos s) eqn:E1; [(split; [reflexivity|]; split; [split; assumption | exact Hwf])|].
    destruct (isize_max e <? mem_pos s + zlen bs) eqn:E2; [(split; [reflexivity|]; split; [split; assumption | exact Hwf])|].
    cbn [fst snd map_res]. split; [reflexivity|]. split.
    + split; [reflexivity|]. cbn [mem_data mem_pos].
      eapply a_same_trans; [apply a_of_store; lia|]. now apply a_store_same.
    + split; cbn [mem_data mem_pos].
      * destruct (isize_max_cases e) as [[F1 F2]|[F1 F2]]; rewrite F1 in E2; unfold zlen in *; lia.
      * rewrite store_at_length by lia. lia.
  - (* seek *)
    cbn [io_seek mem_io]. unfold mem_seek.
    destruct p as [n|n|n]; cbn [call_ok] in Hc; rewrite <- ?EL, <- ?EP.
    + replace ((0 <=? n) && (n <? 2 ^ 64)) with true by lia. cbn [fst snd map_res].
      split; [reflexivity|]. split; [apply HM | apply HW; lia].
    + destruct ((0 <=? zlen (mem_data s) + n) && (zlen (mem_data s) + n <? 2 ^ 64)) eqn:E; cbn [fst snd map_res].
      * split; [reflexivity|]. split; [apply HM | apply HW; lia].
      * (split; [reflexivity|]; split; [split; assumption | exact Hwf]).
    + destruct ((0 <=? mem_pos s + n) && (mem_pos s + n <? 2 ^ 64)) eqn:E; cbn [fst snd map_res].
      * split; [reflexivity|]. split; [apply HM | apply HW; lia].
      * (split; [reflexivity|]; split; [split; assumption | exact Hwf]).
  - (* tell *)
    cbn [io_tell mem_io]. unfold mem_tell, as_usize. cbn [fst snd map_res]. rewrite EP.
    split; [reflexivity|]. split; [split; assumption | exact Hwf].
  - (* reported_size *)
    rewrite reported_size_mem by assumption. cbn [fst snd map_res]. rewrite EL, EP.
    split; [reflexivity|]. split; [apply HM|]. apply HW.
    destruct (usize_lim_cases e) as [E|E]; rewrite E;
      [pose proof (Z.mod_pos_bound (a_pos a) (2 ^ 32)) | pose proof (Z.mod_pos_bound (a_pos a) (2 ^ 64))]; lia.
Qed.

Lemma mem_history e cs : forall s a, Forall call_ok cs -> mem_wf e s -> mem_rep s a ->
  fst (run_calls (call_on (mem_io e)) cs s) = fst (run_calls (a_mem_call e) cs a) /\
  mem_rep (snd (run_calls (call_on (mem_io e)) cs s)) (snd (run_calls (a_mem_call e) cs a)) /\
  mem_wf e (snd (run_calls (call_on (mem_io e)) cs s)).
Proof.
  induction cs as [|c cs IH]; intros s a Hok Hwf Hrep.
  - simpl. auto.
  - inversion Hok as [|? ? Hc Hcs]; subst.
    destruct (mem_step e c s a Hc Hwf Hrep) as (H1 & H2 & H3).
    cbn [run_calls].
    destruct (call_on (mem_io e) c s) as [x s'], (a_mem_call e c a) as [y a']. cbn [fst snd] in *.
    subst y. destruct (IH s' a' Hcs H3 H2) as (I1 & I2 & I3).
    destruct (run_calls (call_on (mem_io e)) cs s') as [xs s''],
             (run_calls (a_mem_call e) cs a') as [ys a'']. cbn [fst snd] in *. subst ys.
    destruct x; cbn [fst snd]; auto.
Qed.
