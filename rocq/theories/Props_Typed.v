(** C03, C04, C05, C12, C13: typed transfers. *)
From Verif Require Import M_Base M_Endian M_F64 M_IO M_FileMem S_Bytes S_File S_Typed
  P_Bytes P_Endian P_FileMem P_Typed P_IOProps Props_Endian.

(** C03.  What the handler is given, for every handler and host. *)
Theorem C03_typed_writes_give_wire_bytes :
  forall (S : Type) (e : env) (h : IOHandler S) (s : S),
    let b := feat_le e in
    (forall v, write_u8 h v s = io_write h s [v]) /\
    (forall v, write_u16 e h v s = io_write h s (wire_enc b 2 v)) /\
    (forall v, write_u32 e h v s = io_write h s (wire_enc b 4 v)) /\
    (forall v, write_u64 e h v s = io_write h s (wire_enc b 8 v)) /\
    (forall x, write_f32 e h x s = io_write h s (wire_enc b 4 (bits_of_f32 x))) /\
    (forall x, write_s15f16 e h x s = io_write h s (wire_enc b 4 (f64_to_s15f16 x mod 2 ^ 32))).
Proof.
  exact (fun S e h s => conj (fun v => write_u8_bytes h v s) (conj (fun v => write_u16_bytes e h v s)
    (conj (fun v => write_u32_bytes e h v s) (conj (fun v => write_u64_bytes e h v s)
    (conj (fun x => write_f32_bytes e h x s) (fun x => write_s15f16_bytes e h x s)))))).
Qed.
Print Assumptions C03_typed_writes_give_wire_bytes.

(** ... and the size and content of those bytes. *)
Theorem C03_wire_bytes_have_size_and_value :
  forall (b : bool) (n : nat) (v : Z), is_uint n v ->
    length (wire_enc b n v) = n /\ are_bytes (wire_enc b n v) /\ wire_value b (wire_enc b n v) = v.
Proof. exact (fun b n v H => conj (wire_enc_length b n v) (conj (wire_enc_bytes b n v) (wire_value_enc b n v H))). Qed.
Print Assumptions C03_wire_bytes_have_size_and_value.

(** The reading side: the wire value of whatever bytes the handler delivers. *)
Theorem C03_typed_reads_take_wire_value :
  forall (S : Type) (e : env) (h : IOHandler S) (n : nat) (rd : S -> res Z * S) (s : S),
    (n, rd) = (1%nat, read_u8 h) \/ (n, rd) = (2%nat, read_u16 e h) \/
    (n, rd) = (4%nat, read_u32 e h) \/ (n, rd) = (8%nat, read_u64 e h) ->
    match read_array h n s with
    | (Ok buf, s') => length buf = n -> are_bytes buf -> rd s = (Ok (wire_value (feat_le e) buf), s')
    | (Err er, s') => rd s = (Err er, s')
    | (Panic, s') => rd s = (Panic, s')
    end.
Proof. exact (fun S e h n rd s => typed_reads e h n rd s). Qed.
Print Assumptions C03_typed_reads_take_wire_value.

(** C04, C05: write on [ew], seek back, read on [er]. *)
Theorem C04_streams_are_portable :
  forall (ew er : env) (ts : list tval) (d : list Z) (p : Z),
    feat_le er = feat_le ew ->
    Forall tval_ok ts -> 0 <= p -> zlen d <= isize_max ew -> p + total_size ts <= isize_max ew ->
    let '(rw, s1) := write_ts ew (mem_io ew) ts (mkMem true d p) in
    let '(rs, s2) := mem_seek s1 (SeekStart p) in
    let '(rr, s3) := read_ts er (mem_io er) ts s2 in
    rw = Ok tt /\ fst (mem_tell ew s1) = Ok (p + total_size ts) /\ rs = Ok tt /\ rr = Ok ts /\ s3 = s1.
Proof. exact typed_round_trip. Qed.
Print Assumptions C04_streams_are_portable.

(** The feature must agree: a stream written with it and read without comes back different. *)
Theorem C04_needs_equal_feature :
  let with_le := mkEnv false true true true false false in
  fst (read_ts pc (mem_io pc) [VU16 1]
    (snd (mem_seek (snd (write_ts with_le (mem_io with_le) [VU16 1] (mem_new true []))) (SeekStart 0))))
  = Ok [VU16 256].
Proof. exact eq_refl. Qed.
Print Assumptions C04_needs_equal_feature.

Theorem C05_round_trip :
  forall (e : env) (ts : list tval) (d : list Z) (p : Z),
    Forall tval_ok ts -> 0 <= p -> zlen d <= isize_max e -> p + total_size ts <= isize_max e ->
    let '(rw, s1) := write_ts e (mem_io e) ts (mkMem true d p) in
    let '(rs, s2) := mem_seek s1 (SeekStart p) in
    let '(rr, s3) := read_ts e (mem_io e) ts s2 in
    rw = Ok tt /\ fst (mem_tell e s1) = Ok (p + total_size ts) /\ rs = Ok tt /\ rr = Ok ts /\ s3 = s1.
Proof. exact (fun e ts d p => typed_round_trip e e ts d p eq_refl). Qed.
Print Assumptions C05_round_trip.

(** What such a history leaves in the file. *)
Theorem C05_stream_content :
  forall (e : env) (ts : list tval) (d : list Z) (p : Z),
    Forall tval_ok ts -> 0 <= p -> zlen d <= isize_max e -> p + total_size ts <= isize_max e ->
    let '(r, s) := write_ts e (mem_io e) ts (mkMem true d p) in
    let bytes := flat_map (tval_bytes (feat_le e)) ts in
    r = Ok tt /\ mem_pos s = p + total_size ts /\
    (ts = [] \/ total_size ts = 0 -> mem_data s = d) /\
    (0 < total_size ts -> zlen (mem_data s) = Z.max (zlen d) (p + total_size ts)) /\
    forall i, nth i (mem_data s) 0 =
      if (p <=? Z.of_nat i) && (Z.of_nat i <? p + total_size ts)
      then nth (i - Z.to_nat p) bytes 0 else nth i d 0.
Proof. exact stream_content. Qed.
Print Assumptions C05_stream_content.

(** C12. *)
Theorem C12_write_u16_array_is_elementwise :
  forall (S : Type) (e : env) (h : IOHandler S) (vs : list Z) (s : S),
    let '(r, s') := write_u16_array e h vs s in writes_in_order (write_u16 e h) vs s r s'.
Proof. exact (fun S e h vs s => write_u16_array_in_order e h vs s). Qed.
Print Assumptions C12_write_u16_array_is_elementwise.

Theorem C12_read_u16_array_is_elementwise :
  forall (S : Type) (e : env) (h : IOHandler S) (buf : list Z) (s : S),
    let '(r, s', buf') := read_u16_array e h buf s in reads_in_order (read_u16 e h) buf s r s' buf'.
Proof. exact (fun S e h buf s => read_u16_array_in_order e h buf s). Qed.
Print Assumptions C12_read_u16_array_is_elementwise.

(** The relation determines the outcome and keeps the buffer's length. *)
Theorem C12_in_order_is_deterministic :
  forall (S : Type) (rd : S -> res Z * S) buf s r1 s1 b1 r2 s2 b2,
    reads_in_order rd buf s r1 s1 b1 -> reads_in_order rd buf s r2 s2 b2 ->
    r1 = r2 /\ s1 = s2 /\ b1 = b2 /\ length b1 = length buf.
Proof. exact (fun S rd buf s r1 s1 b1 r2 s2 b2 => rio_det rd buf s r1 s1 b1 r2 s2 b2). Qed.
Print Assumptions C12_in_order_is_deterministic.

(** C13. *)
Theorem C13_f32_bits_survive_conversion :
  forall bits, is_uint 4 bits -> bits_of_f32 (f32_of_bits bits) = bits.
Proof. exact f32_bits_bits. Qed.
Print Assumptions C13_f32_bits_survive_conversion.

Theorem C13_f32_transfer_is_bit_exact :
  forall (ew er : env) (bits : Z) (d : list Z) (p : Z),
    feat_le er = feat_le ew -> is_uint 4 bits ->
    0 <= p -> zlen d <= isize_max ew -> p + 4 <= isize_max ew ->
    let '(rw, s1) := write_f32 ew (mem_io ew) (f32_of_bits bits) (mkMem true d p) in
    let '(_, s2) := mem_seek s1 (SeekStart p) in
    let '(rr, _) := read_f32 er (mem_io er) s2 in
    rw = Ok tt /\ rr = Ok (f32_of_bits bits) /\ map_res bits_of_f32 rr = Ok bits.
Proof. exact f32_transfer. Qed.
Print Assumptions C13_f32_transfer_is_bit_exact.

(** Concrete cases. *)
Definition sample : list tval :=
  [VU8 7; VU16 258; VU16s [1; 65535]; VU32 305419896; VF32 2143289345 (* a NaN with payload *);
   VU64 18446744073709551615].
Example sample_ok : Forall tval_ok sample.
Proof. repeat constructor; unfold is_uint; cbn; lia. Qed.
Example sample_size : total_size sample = 23.
Proof. reflexivity. Qed.
Example sample_written :
  write_ts pc (mem_io pc) sample (mkMem true [9; 9] 3) =
  (Ok tt, mkMem true [9; 9; 0; 7; 1; 2; 0; 1; 255; 255; 18; 52; 86; 120; 127; 192; 0; 1;
                      255; 255; 255; 255; 255; 255; 255; 255] 26).
Proof. vm_compute. reflexivity. Qed.
Example sample_read_on_s390 :
  fst (read_ts s390 (mem_io s390) sample
        (snd (mem_seek (snd (write_ts pc (mem_io pc) sample (mkMem true [9; 9] 3))) (SeekStart 3)))) = Ok sample.
Proof. vm_compute. reflexivity. Qed.
Example partial_array_read :
  (* three elements wanted, two present: the third keeps its old value *)
  read_u16_array pc (mem_io pc) [11; 22; 33] (mem_new true [1; 0; 2; 0; 3])
  = (Err UnexpectedEof, mkMem true [1; 0; 2; 0; 3] 4, [256; 512; 33]).
Proof. reflexivity. Qed.
Example signalling_nan : is_uint 4 2139095041 /\ is_uint 4 2147483648 /\ is_uint 4 1.
Proof. unfold is_uint; cbn; lia. Qed.
