(** s15Fixed16 round trips, also through a memory file. *)
From Coq Require Import ZArith Reals Lia Lra ZifyBool.
From Flocq Require Import Core IEEE754.BinarySingleNaN.
From Verif Require Import M_Base M_Endian M_F64 M_IO M_FileMem S_Bytes S_File S_Typed
  P_Bytes P_Endian P_FileMem P_Typed P_S15.
Open Scope R_scope.

Lemma u32_i32 w : is_uint 4 w -> (- 2 ^ 31 <= u32_to_i32 w < 2 ^ 31)%Z /\ i32_to_u32 (u32_to_i32 w) = w.
Proof.
  unfold is_uint, u32_to_i32, i32_to_u32. change (256 ^ Z.of_nat 4)%Z with (2 ^ 32)%Z. intros H.
  destruct (w <? 2 ^ 31)%Z eqn:E; (split; [lia|]).
  - apply Z.mod_small. lia.
  - rewrite <- (Z_mod_plus_full _ 1). rewrite Z.mod_small by lia. lia.
Qed.

Lemma clamp_range n : (- 2 ^ 31 <= clamp_i32 n < 2 ^ 31)%Z.
Proof. unfold clamp_i32, i32_max, i32_min. lia. Qed.
Lemma clamp_id n : (- 2 ^ 31 <= n < 2 ^ 31)%Z -> clamp_i32 n = n.
Proof. unfold clamp_i32, i32_max, i32_min. lia. Qed.

Lemma exc_y_frac : 0 < exc_y < / 2.
Proof.
  unfold exc_y. assert (bpow radix2 (-54) < bpow radix2 (-1)) by (apply bpow_lt; lia). rewrite bpow_half in H.
  assert (0 < bpow radix2 (-54)) by apply bpow_gt_0. lra.
Qed.

Lemma exc_y_not_int n : IZR n <> exc_y.
Proof.
  intros H. pose proof exc_y_frac as [H1 H2]. rewrite <- H in *.
  apply lt_IZR in H1. assert (IZR n < 1) by lra. apply lt_IZR in H0. lia.
Qed.

Lemma enc_range x : (- 2 ^ 31 <= f64_to_s15f16 x < 2 ^ 31)%Z.
Proof.
  unfold f64_to_s15f16. unfold f64_as_i32. destruct (f64_floor _) as [s|[]| |s m x0 H]; try apply clamp_range;
    unfold i32_min, i32_max; lia.
Qed.

(** A 32-bit value survives decoding and encoding. *)
Lemma word_round_trip e v : (- 2 ^ 31 <= v < 2 ^ 31)%Z -> (ovf e = true -> v <> (- 2 ^ 31)%Z) ->
  exists x, s15f16_to_f64 e v = Some x /\ f64_to_s15f16 x = v.
Proof.
  intros Hv Ho. destruct (dec_exact e v Hv Ho) as (x & E & F & V). exists x. split; [exact E|].
  assert (Y : 65536 * B2R x = IZR v) by (rewrite V; unfold dec_value; lra).
  rewrite enc_main; [|exact F|rewrite Y; apply exc_y_not_int].
  rewrite Y. rewrite (Zfloor_imp v) by (rewrite plus_IZR; lra). now apply clamp_id.
Qed.

(** A double in range survives encoding and decoding up to rounding. *)
Lemma value_round_trip e x : is_finite x = true ->
  - 32768 - / 131072 <= B2R x < 32768 - / 131072 ->
  (ovf e = true -> - 32768 + / 131072 <= B2R x) ->
  exists x', s15f16_to_f64 e (f64_to_s15f16 x) = Some x' /\ is_finite x' = true /\
             Rabs (B2R x' - B2R x) <= / 131072 + bpow radix2 (-70) /\
             (x <> exc -> Rabs (B2R x' - B2R x) <= / 131072).
Proof.
  intros Hx Hr Ho.
  assert (B70 : 0 < bpow radix2 (-70)) by apply bpow_gt_0.
  destruct (Req_dec (65536 * B2R x) exc_y) as [He|He].
  - pose proof (exc_only x Hx He) as ->. rewrite exc_encodes.
    destruct (dec_exact e 1 ltac:(lia) ltac:(lia)) as (x' & E & F & V).
    exists x'. split; [exact E|]. split; [exact F|]. split; [|congruence].
    assert (XV : B2R exc = exc_y / 65536) by lra. rewrite V, XV. unfold dec_value, exc_y.
    assert (bpow radix2 (-54) = 65536 * bpow radix2 (-70)).
    { replace 65536 with (bpow radix2 16) by reflexivity. rewrite <- bpow_plus. reflexivity. }
    rewrite H. rewrite Rabs_pos_eq; lra.
  - rewrite enc_main by assumption. set (n := Zfloor (65536 * B2R x + / 2)).
    pose proof (Zfloor_lb (65536 * B2R x + / 2)) as L. pose proof (Zfloor_ub (65536 * B2R x + / 2)) as U.
    fold n in L, U.
    assert (Hn : (- 2 ^ 31 <= n < 2 ^ 31)%Z).
    { split; [apply floor_up; change (IZR (- 2 ^ 31)) with (- 2147483648); lra|].
      apply floor_lt. change (IZR (2 ^ 31)) with 2147483648. lra. }
    rewrite clamp_id by exact Hn.
    destruct (dec_exact e n Hn) as (x' & E & F & V).
    { intros O. specialize (Ho O). assert (- 2147483647 <= n)%Z; [|lia].
      apply floor_up. lra. }
    exists x'. split; [exact E|]. split; [exact F|].
    assert (Rabs (B2R x' - B2R x) <= / 131072); [|split; [lra|auto]].
    rewrite V. unfold dec_value. apply Rabs_le. lra.
Qed.

(** ** Through a handler *)
Open Scope Z_scope.

Definition xyz_words (v : CIEXYZ) : list tval :=
  [VU32 (f64_to_s15f16 (xyz_X v) mod 2 ^ 32); VU32 (f64_to_s15f16 (xyz_Y v) mod 2 ^ 32);
   VU32 (f64_to_s15f16 (xyz_Z v) mod 2 ^ 32)].

Lemma write_xyz_words {S} e (h : IOHandler S) v s : write_xyz e h v s = write_ts e h (xyz_words v) s.
Proof.
  unfold write_xyz, xyz_words. cbn [write_ts write_t]. unfold write_s15f16, i32_to_u32.
  destruct (write_u32 e h (f64_to_s15f16 (xyz_X v) mod 2 ^ 32) s) as [[[]|?|] s1]; cbn [bind]; try reflexivity.
  destruct (write_u32 e h (f64_to_s15f16 (xyz_Y v) mod 2 ^ 32) s1) as [[[]|?|] s2]; cbn [bind]; try reflexivity.
  now destruct (write_u32 e h (f64_to_s15f16 (xyz_Z v) mod 2 ^ 32) s2) as [[[]|?|] s3].
Qed.

Lemma word_ok x : tval_ok (VU32 (f64_to_s15f16 x mod 2 ^ 32)).
Proof. cbn. unfold is_uint. change (256 ^ Z.of_nat 4) with (2 ^ 32). apply Z.mod_pos_bound. lia. Qed.

Lemma word_back x : u32_to_i32 (f64_to_s15f16 x mod 2 ^ 32) = f64_to_s15f16 x.
Proof.
  pose proof (enc_range x). set (n := f64_to_s15f16 x) in *. unfold u32_to_i32.
  destruct (Z_lt_le_dec n 0).
  - replace (n mod 2 ^ 32) with (n + 2 ^ 32).
    + destruct (n + 2 ^ 32 <? 2 ^ 31) eqn:E; lia.
    + rewrite <- (Z.mod_small (n + 2 ^ 32) (2 ^ 32)) by lia.
      rewrite <- Zplus_mod_idemp_r, Z_mod_same_full, Z.add_0_r. reflexivity.
  - rewrite Z.mod_small by lia. destruct (n <? 2 ^ 31) eqn:E; lia.
Qed.

Lemma read_s15_of_word {S} e (h : IOHandler S) s w s' : read_u32 e h s = (Ok w, s') ->
  read_s15f16 e h s = match s15f16_to_f64 e (u32_to_i32 w) with Some x => (Ok x, s') | None => (Panic, s') end.
Proof. intros H. unfold read_s15f16. rewrite H. reflexivity. Qed.

(** Reading three words read one after another. *)
Lemma read_xyz_of_words {S} e (h : IOHandler S) s s' a b c xa xb xc :
  read_ts e h [VU32 a; VU32 b; VU32 c] s = (Ok [VU32 a; VU32 b; VU32 c], s') ->
  s15f16_to_f64 e (u32_to_i32 a) = Some xa -> s15f16_to_f64 e (u32_to_i32 b) = Some xb ->
  s15f16_to_f64 e (u32_to_i32 c) = Some xc ->
  read_xyz e h s = (Ok (mkXYZ xa xb xc), s').
Proof.
  intros H Ha Hb Hc. cbn [read_ts read_t] in H. unfold rmap in H. unfold read_xyz.
  destruct (read_u32 e h s) as [[wa|?|] s1] eqn:E1; cbn [bind] in H; try discriminate.
  destruct (read_u32 e h s1) as [[wb|?|] s2] eqn:E2; cbn [bind] in H; try discriminate.
  destruct (read_u32 e h s2) as [[wc|?|] s3] eqn:E3; cbn [bind] in H; try discriminate.
  injection H as -> -> -> ->.
  rewrite (read_s15_of_word _ _ _ _ _ E1), Ha. cbn [bind].
  rewrite (read_s15_of_word _ _ _ _ _ E2), Hb. cbn [bind].
  rewrite (read_s15_of_word _ _ _ _ _ E3), Hc. reflexivity.
Qed.

Lemma xyz_round_trip ew er v d p : feat_le er = feat_le ew ->
  xyz_in_range er (xyz_X v) -> xyz_in_range er (xyz_Y v) -> xyz_in_range er (xyz_Z v) ->
  0 <= p -> zlen d <= isize_max ew -> p + 12 <= isize_max ew ->
  let '(rw, s1) := write_xyz ew (mem_io ew) v (mkMem true d p) in
  let '(rs, s2) := mem_seek s1 (SeekStart p) in
  let '(rr, s3) := read_xyz er (mem_io er) s2 in
  rw = Ok tt /\ mem_pos s1 = p + 12 /\ rs = Ok tt /\ s3 = s1 /\
  exists x y z, rr = Ok (mkXYZ x y z) /\ close (xyz_X v) x /\ close (xyz_Y v) y /\ close (xyz_Z v) z.
Proof.
  intros Hf (X1 & X2 & X3) (Y1 & Y2 & Y3) (Z1 & Z2 & Z3) Hp Hl Hc.
  rewrite write_xyz_words.
  pose proof (typed_round_trip ew er (xyz_words v) d p Hf) as H.
  cbn [xyz_words total_size fold_right tval_size] in H.
  assert (OK : Forall tval_ok (xyz_words v)) by (repeat constructor; apply word_ok).
  specialize (H OK Hp Hl ltac:(lia)). fold (xyz_words v) in H.
  assert (P1 : mem_pos (snd (write_ts ew (mem_io ew) (xyz_words v) (mkMem true d p))) = p + 12).
  { rewrite write_ts_mem; cbn [mem_pos snd growable]; try assumption; try reflexivity.
    split; cbn [mem_pos mem_data]; [|assumption]. destruct (isize_max_cases ew) as [[E _]|[E _]]; rewrite E in *; lia. }
  destruct (write_ts ew (mem_io ew) (xyz_words v) (mkMem true d p)) as [rw s1]. cbn [snd] in P1.
  destruct (mem_seek s1 (SeekStart p)) as [rs s2].
  destruct (read_ts er (mem_io er) (xyz_words v) s2) as [rr s3] eqn:ER.
  destruct H as (-> & _ & -> & -> & ->).
  destruct (value_round_trip er (xyz_X v) X1 X2 X3) as (x & EX & FX & CX & _).
  destruct (value_round_trip er (xyz_Y v) Y1 Y2 Y3) as (y & EY & FY & CY & _).
  destruct (value_round_trip er (xyz_Z v) Z1 Z2 Z3) as (z & EZ & FZ & CZ & _).
  unfold xyz_words in ER.
  rewrite (read_xyz_of_words er (mem_io er) s2 s1 _ _ _ x y z ER) by (rewrite word_back; assumption).
  repeat split; try assumption. exists x, y, z. repeat split; assumption.
Qed.

Lemma enc_saturates (x : f64) : is_finite x = true -> x <> exc ->
  f64_to_s15f16 x =
  let n := Zfloor (65536 * B2R x + / 2) in
  if n <? - 2 ^ 31 then - 2 ^ 31 else if 2 ^ 31 - 1 <? n then 2 ^ 31 - 1 else n.
Proof.
  intros Hx He. rewrite enc_main; [|exact Hx|intros H; apply He; now apply exc_only].
  cbv zeta. set (n := Zfloor _). unfold clamp_i32, i32_max, i32_min.
  destruct (n <? - 2 ^ 31) eqn:E1; [lia|]. destruct (2 ^ 31 - 1 <? n) eqn:E2; lia.
Qed.

Lemma exc_facts : B2R exc = ((/ 2 - bpow radix2 (-54)) / 65536)%R /\
  f64_to_s15f16 exc = 1 /\ Zfloor (65536 * B2R exc + / 2) = 0.
Proof.
  split; [|split; [exact exc_encodes|exact exc_floor]].
  destruct exc_value as [H _]. unfold exc_y in H. lra.
Qed.

Lemma word_survives e w : is_uint 4 w -> (ovf e = true -> w <> 2 ^ 31) ->
  exists x, s15f16_to_f64 e (u32_to_i32 w) = Some x /\ i32_to_u32 (f64_to_s15f16 x) = w.
Proof.
  intros Hw Ho. destruct (u32_i32 w Hw) as [R B].
  destruct (word_round_trip e (u32_to_i32 w) R) as (x & E1 & E2).
  { intros O. specialize (Ho O). unfold u32_to_i32. unfold is_uint in Hw.
    change (256 ^ Z.of_nat 4) with (2 ^ 32) in Hw. destruct (w <? 2 ^ 31) eqn:E; lia. }
  exists x. split; [exact E1|]. now rewrite E2.
Qed.
