(** C14-C16: s15Fixed16 numbers. *)
From Coq Require Import ZArith Reals Lia Lra.
From Flocq Require Import Core IEEE754.BinarySingleNaN.
From Verif Require Import M_Base M_F64 M_IO M_FileMem S_Bytes S_File S_Typed S_S15 P_S15 P_S15IO Props_Endian.

(** C14.  [v] is the word read as a signed number. *)
Theorem C14_decoding_is_exact :
  forall (e : env) (v : Z), (- 2 ^ 31 <= v < 2 ^ 31)%Z -> (ovf e = true -> v <> (- 2 ^ 31)%Z) ->
    exists x, s15f16_to_f64 e v = Some x /\ is_finite x = true /\ B2R x = (IZR v / 65536)%R.
Proof. exact dec_exact. Qed.
Print Assumptions C14_decoding_is_exact.

Theorem C14_decoding_panics_only_on_min :
  forall (e : env) (v : Z), (- 2 ^ 31 <= v < 2 ^ 31)%Z ->
    (s15f16_to_f64 e v = None <-> ovf e = true /\ v = (- 2 ^ 31)%Z).
Proof. exact dec_panics. Qed.
Print Assumptions C14_decoding_panics_only_on_min.

(** [read_s15f16] is that conversion after [read_u32], for every handler. *)
Theorem C14_read_s15f16_decodes_the_word :
  forall (S : Type) (e : env) (h : IOHandler S) (s : S) (w : Z) (s' : S),
    read_u32 e h s = (Ok w, s') ->
    read_s15f16 e h s = match s15f16_to_f64 e (u32_to_i32 w) with Some x => (Ok x, s') | None => (Panic, s') end.
Proof. exact (fun S e h s w s' => read_s15_of_word e h s w s'). Qed.
Print Assumptions C14_read_s15f16_decodes_the_word.

(** C15.  [exc] is (2^53-1) * 2^-70 = (1/2 - 2^-54)/65536. *)
Definition saturate (n : Z) : Z :=
  if n <? - 2 ^ 31 then - 2 ^ 31 else if 2 ^ 31 - 1 <? n then 2 ^ 31 - 1 else n.
Theorem C15_encoding_rounds_half_up_and_saturates :
  forall x : f64, is_finite x = true -> x <> exc ->
    f64_to_s15f16 x = saturate (Zfloor (65536 * B2R x + / 2)).
Proof. exact enc_saturates. Qed.
Print Assumptions C15_encoding_rounds_half_up_and_saturates.

Theorem C15_the_one_exception :
  B2R exc = ((/ 2 - bpow radix2 (-54)) / 65536)%R /\
  f64_to_s15f16 exc = 1 /\ Zfloor (65536 * B2R exc + / 2) = 0.
Proof. exact exc_facts. Qed.
Print Assumptions C15_the_one_exception.

Theorem C15_special_values :
  f64_to_s15f16 B754_nan = 0 /\
  f64_to_s15f16 (B754_infinity false) = 2 ^ 31 - 1 /\ f64_to_s15f16 (B754_infinity true) = - 2 ^ 31.
Proof. exact (conj enc_nan (conj (enc_inf false) (enc_inf true))). Qed.
Print Assumptions C15_special_values.

(** C16. *)
Theorem C16_every_word_survives :
  forall (e : env) (w : Z), is_uint 4 w -> (ovf e = true -> w <> 2 ^ 31) ->
    exists x, s15f16_to_f64 e (u32_to_i32 w) = Some x /\ i32_to_u32 (f64_to_s15f16 x) = w.
Proof. exact word_survives. Qed.
Print Assumptions C16_every_word_survives.

Theorem C16_every_value_in_range_survives_up_to_rounding :
  forall (e : env) (x : f64), is_finite x = true ->
    (- 32768 - / 131072 <= B2R x < 32768 - / 131072)%R ->
    (ovf e = true -> - 32768 + / 131072 <= B2R x)%R ->
    exists x', s15f16_to_f64 e (f64_to_s15f16 x) = Some x' /\ is_finite x' = true /\
               (Rabs (B2R x' - B2R x) <= / 131072 + bpow radix2 (-70))%R /\
               (x <> exc -> (Rabs (B2R x' - B2R x) <= / 131072)%R).
Proof. exact value_round_trip. Qed.
Print Assumptions C16_every_value_in_range_survives_up_to_rounding.

(** Three coordinates through a memory file, possibly between two hosts. *)
Theorem C16_xyz_round_trip :
  forall (ew er : env) (v : CIEXYZ) (d : list Z) (p : Z),
    feat_le er = feat_le ew ->
    xyz_in_range er (xyz_X v) -> xyz_in_range er (xyz_Y v) -> xyz_in_range er (xyz_Z v) ->
    0 <= p -> zlen d <= isize_max ew -> p + 12 <= isize_max ew ->
    let '(rw, s1) := write_xyz ew (mem_io ew) v (mkMem true d p) in
    let '(rs, s2) := mem_seek s1 (SeekStart p) in
    let '(rr, s3) := read_xyz er (mem_io er) s2 in
    rw = Ok tt /\ mem_pos s1 = p + 12 /\ rs = Ok tt /\ s3 = s1 /\
    exists x y z, rr = Ok (mkXYZ x y z) /\ close (xyz_X v) x /\ close (xyz_Y v) y /\ close (xyz_Z v) z.
Proof. exact xyz_round_trip. Qed.
Print Assumptions C16_xyz_round_trip.

(** Concrete cases: the D50 white point, negative values, the ends of the range. *)
Definition d50_x : f64 := f64_div (f64_of_int 9642) (f64_of_int 10000).
Example enc_d50 : f64_to_s15f16 d50_x = 63190 /\ f64_to_s15f16 (f64_of_int 1) = 65536.
Proof. vm_compute. auto. Qed.
Example enc_neg_half_step : f64_to_s15f16 (f64_lit (-1) (-17)) = 0 /\ f64_to_s15f16 (f64_lit (-3) (-17)) = -1.
Proof. vm_compute. auto. Qed.
Example enc_saturated : f64_to_s15f16 (f64_of_int 40000) = 2147483647 /\ f64_to_s15f16 (f64_lit (-1) 1023) = -2147483648.
Proof. vm_compute. auto. Qed.
Example dec_min : s15f16_to_f64 pc (-2147483648) = None
               /\ option_map B2SF (s15f16_to_f64 (mkEnv false false false true false false) (-2147483648))
                  = Some (B2SF (f64_of_int (-32768))).
Proof. split; vm_compute; reflexivity. Qed.
Example in_range_1 : xyz_in_range pc (f64_of_int 1).
Proof.
  destruct (f64_of_int_exact 1 ltac:(lia)) as [E1 E2]. unfold xyz_in_range. rewrite E1. repeat split; try exact E2; lra.
Qed.
