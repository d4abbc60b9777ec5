(** Lemmas behind C06-C10. *)
From Coq Require Import ZifyBool.
From Verif Require Import M_Base M_IO M_FileMem M_FileFile S_Bytes S_File P_List P_FileMem.

Lemma fixed_write_fits e d p bs : 0 <= p -> p + zlen bs <= zlen d ->
  let '(r, s') := mem_write e (mkMem false d p) bs in
  r = Ok tt /\ growable s' = false /\ length (mem_data s') = length d /\ mem_pos s' = p + zlen bs /\
  forall i, nth i (mem_data s') 0 =
            if (p <=? Z.of_nat i) && (Z.of_nat i <? p + zlen bs)
            then nth (i - Z.to_nat p) bs 0 else nth i d 0.
Proof.
  intros Hp Hf. destruct bs as [|x bs'].
  - rewrite mem_write_nil by reflexivity. change (zlen []) with 0. cbn. rewrite Z.add_0_r. repeat split.
    intros i. replace ((p <=? Z.of_nat i) && (Z.of_nat i <? p)) with false by lia. reflexivity.
  - set (bs := x :: bs') in *.
    assert (Lb : (1 <= length bs)%nat) by (simpl; lia). clearbody bs.
    pose proof (mem_write_slice e (mkMem false d p) bs eq_refl Hp) as E.
    cbv zeta in E. rewrite E by (destruct bs; [simpl in Lb; lia|easy]). clear E.
    cbn [mem_data mem_pos].
    assert (R : room (mkMem false d p) = (length d - Z.to_nat p)%nat) by reflexivity.
    unfold zlen in *.
    replace (length bs <=? room (mkMem false d p))%nat with true by lia.
    replace (room (mkMem false d p) =? 0)%nat with false by lia.
    replace (Nat.min (length bs) (room (mkMem false d p))) with (length bs) by lia.
    rewrite firstn_all. repeat split.
    + rewrite length_splice by lia. lia.
    + intros i. rewrite nth_splice by lia.
      destruct (Nat.ltb_spec i (Z.to_nat p)), (Nat.ltb_spec i (Z.to_nat p + length bs));
        destruct ((p <=? Z.of_nat i) && (Z.of_nat i <? p + Z.of_nat (length bs))) eqn:E; auto; lia.
Qed.

Lemma fixed_write_overflow e d p bs : 0 <= p -> 0 < zlen bs -> zlen d < p + zlen bs ->
  let '(r, s') := mem_write e (mkMem false d p) bs in
  r = Err WriteZero /\ growable s' = false /\ length (mem_data s') = length d /\
  mem_pos s' = Z.max p (zlen d) /\
  forall i, nth i (mem_data s') 0 =
            if (p <=? Z.of_nat i) && (Z.of_nat i <? zlen d)
            then nth (i - Z.to_nat p) bs 0 else nth i d 0.
Proof.
  intros Hp Hb Hf.
  pose proof (mem_write_slice e (mkMem false d p) bs eq_refl Hp) as E. cbv zeta in E.
  rewrite E by (intros ->; discriminate). clear E. cbn [mem_data mem_pos].
  assert (R : room (mkMem false d p) = (length d - Z.to_nat p)%nat) by reflexivity.
  unfold zlen in *.
  replace (length bs <=? room (mkMem false d p))%nat with false by lia.
  replace (Nat.min (length bs) (room (mkMem false d p))) with (room (mkMem false d p)) by lia.
  destruct (Nat.eqb_spec (room (mkMem false d p)) 0) as [E|E].
  - repeat split; [lia|]. intros i.
    replace ((p <=? Z.of_nat i) && (Z.of_nat i <? Z.of_nat (length d))) with false by lia. reflexivity.
  - repeat split; [|lia|].
    + rewrite length_splice, firstn_length by lia. lia.
    + intros i. rewrite nth_splice, firstn_length by lia.
      destruct (Nat.ltb_spec i (Z.to_nat p)),
        (Nat.ltb_spec i (Z.to_nat p + Nat.min (room (mkMem false d p)) (length bs)));
        destruct ((p <=? Z.of_nat i) && (Z.of_nat i <? Z.of_nat (length d))) eqn:E2; auto; try lia.
      rewrite nth_firstn by lia. reflexivity.
Qed.

Lemma fixed_write_never_panics e d p bs : 0 <= p -> fst (mem_write e (mkMem false d p) bs) <> Panic.
Proof. intros Hp H. apply mem_write_fuel in H; [|exact Hp]. now destruct H. Qed.

(** Whole effect of a raw read. *)
Lemma mem_read_exact e s buf : 0 <= mem_pos s ->
  let '(r, s', buf') := mem_read e s buf in
  mem_data s' = mem_data s /\ growable s' = growable s /\
  ((buf = [] \/ mem_pos s + zlen buf <= zlen (mem_data s)) ->
     r = Ok tt /\ mem_pos s' = mem_pos s + zlen buf /\ length buf' = length buf /\
     forall i, (i < length buf)%nat -> nth i buf' 0 = nth (Z.to_nat (mem_pos s) + i) (mem_data s) 0) /\
  (~ (buf = [] \/ mem_pos s + zlen buf <= zlen (mem_data s)) ->
     r = Err UnexpectedEof /\ buf' = buf /\
     mem_pos s' = if eof_moves e then zlen (mem_data s) else mem_pos s).
Proof.
  intros Hp. rewrite mem_read_eq by exact Hp. fold (zlen buf).
  assert (B : (length buf = 0%nat) <-> buf = []) by (destruct buf; simpl; split; intros; congruence).
  destruct ((length buf =? 0)%nat || (mem_pos s + zlen buf <=? zlen (mem_data s))) eqn:E.
  - repeat split.
    + rewrite firstn_length, skipn_length. unfold zlen in E. lia.
    + intros i Hi. rewrite nth_firstn, nth_skipn by exact Hi. reflexivity.
    + exfalso. apply H. rewrite <- B. unfold zlen in *. lia.
    + exfalso. apply H. rewrite <- B. unfold zlen in *. lia.
    + exfalso. apply H. rewrite <- B. unfold zlen in *. lia.
  - destruct (eof_moves e); repeat split; intros;
      try (exfalso; rewrite <- B in *; unfold zlen in *; lia).
Qed.

Lemma mem_seek_exact s pos : 
  let base := match pos with SeekStart _ => 0 | SeekEnd _ => zlen (mem_data s) | SeekCurrent _ => mem_pos s end in
  let off := match pos with SeekStart n | SeekEnd n | SeekCurrent n => n end in
  call_ok (CSeek pos) -> 0 <= mem_pos s < 2 ^ 64 ->
  mem_seek s pos =
  if (0 <=? base + off) && (base + off <? 2 ^ 64)
  then (Ok tt, mkMem (growable s) (mem_data s) (base + off))
  else (Err InvalidInput, s).
Proof.
  intros base off Hc Hp. subst base off. destruct pos; cbn [mem_seek call_ok] in *.
  - rewrite Z.add_0_l. replace ((0 <=? n) && (n <? 2 ^ 64)) with true by lia. reflexivity.
  - reflexivity.
  - reflexivity.
Qed.
