(** The examples in the repository's documentation (run by cargo as tests), evaluated in the model: a check of the model. *)
From Flocq Require Import IEEE754.BinarySingleNaN IEEE754.Bits.
From Verif Require Import M_Base M_Endian M_IO M_F64 M_FileMem M_FileNull.

(** Big-endian build, as the examples assume; any host. *)
Definition be_env (hb ov i64 em pe : bool) : env := mkEnv hb false ov i64 em pe.
Ltac envs := intros hb ov i64 em pe; destruct hb, ov, i64, em, pe; vm_compute; repeat split.
Definition fixed (d : list Z) : FileMem := mem_new false d.
Definition grows : FileMem := mem_new true [].
Definition f64_is (x : f64) (m e : Z) : bool := match Bcompare x (f64_lit m e) with Some Eq => true | _ => false end.

(** /repo/src/io/io_handler.rs:30-42; that the buffer is filled is our addition. *)
Example doc_read : forall hb ov i64 em pe,
  let '(r, _, buf) := mem_read (be_env hb ov i64 em pe) (mem_new true (repeat 42 15)) (repeat 0 10) in r = Ok tt /\ buf = repeat 42 10.
Proof. envs. Qed.

(** io_handler.rs:54-82: seek, then read one byte, with the positions the comments give. *)
Fixpoint visits (e : env) (s : FileMem) (l : list seek_from) : list (res unit * Z * res unit * list Z * Z) :=
  match l with
  | [] => []
  | p :: l' => let '(k, s1) := mem_seek s p in let '(r, s2, b) := mem_read e s1 [0] in (k, mem_pos s1, r, b, mem_pos s2) :: visits e s2 l'
  end.
Example doc_seek : forall hb ov i64 em pe,
  visits (be_env hb ov i64 em pe) (fixed [42; 69; 123; 7; 255])
    [SeekEnd (-1); SeekStart 0; SeekCurrent 2; SeekStart 2; SeekCurrent (-2); SeekStart 4; SeekEnd (-5)] =
  map (fun v => let '(p, b, q) := v in (Ok tt, p, Ok tt, b, q))
    [(4, [255], 5); (0, [42], 1); (3, [7], 4); (2, [123], 3); (1, [69], 2); (4, [255], 5); (0, [42], 1)].
Proof. envs. Qed.

(** io_handler.rs:115-134: [tell] after writes of 8, 4, 2 and 1 bytes to an empty vector. *)
Example doc_tell : forall hb ov i64 em pe,
  let e := be_env hb ov i64 em pe in
  let (r0, s0) := mem_tell e grows in
  let (w1, s1) := write_u64 e (mem_io e) 0 s0 in let (r1, _) := mem_tell e s1 in
  let (w2, s2) := write_u32 e (mem_io e) 0 s1 in let (r2, _) := mem_tell e s2 in
  let (w3, s3) := write_u16 e (mem_io e) 0 s2 in let (r3, _) := mem_tell e s3 in
  let (w4, s4) := write_u8 (mem_io e) 0 s3 in let (r4, _) := mem_tell e s4 in
  [r0; r1; r2; r3; r4] = [Ok 0; Ok 8; Ok 12; Ok 14; Ok 15] /\ [w1; w2; w3; w4] = repeat (Ok tt) 4.
Proof. envs. Qed.

(** io_handler.rs:146-156; the contents afterwards are our addition. *)
Example doc_write : forall hb ov i64 em pe,
  let '(r, s) := mem_write (be_env hb ov i64 em pe) grows [115; 111; 109; 101; 32; 98; 121; 116; 101; 115] in
  r = Ok tt /\ mem_data s = [115; 111; 109; 101; 32; 98; 121; 116; 101; 115].
Proof. envs. Qed.

(** io_handler.rs:175-182, 192-199, 210-223, 233-240, 251-258, 269-276: typed reads. *)
Example doc_reads : forall hb ov i64 em pe,
  let e := be_env hb ov i64 em pe in
  fst (read_u8 (mem_io e) (fixed [42])) = Ok 42 /\
  fst (read_u16 e (mem_io e) (fixed (be_bytes 2 42))) = Ok 42 /\
  (let '(r, _, b) := read_u16_array e (mem_io e) [0; 0; 0] (fixed (be_bytes 2 42 ++ be_bytes 2 69 ++ be_bytes 2 255)) in r = Ok tt /\ b = [42; 69; 255]) /\
  fst (read_u32 e (mem_io e) (fixed (be_bytes 4 42))) = Ok 42 /\
  fst (read_u64 e (mem_io e) (fixed (be_bytes 8 42))) = Ok 42 /\
  match fst (read_f32 e (mem_io e) (fixed [66; 40; 0; 0])) (* 42f32.to_be_bytes() *) with Ok x => bits_of_f32 x = 1109917696 | _ => False end.
Proof. envs. Qed.
(** io_handler.rs:287-294, 302-312: fixed-point reads. *)
Definition xyz_bytes : list Z := [0; 2; 128; 0; 16; 0; 32; 0; 255; 254; 192; 0].
Example doc_fixed_point_reads : forall hb ov i64 em pe,
  let e := be_env hb ov i64 em pe in
  match fst (read_s15f16 e (mem_io e) (fixed (be_bytes 4 163840))) with Ok x => f64_is x 5 (-1) | _ => false end = true /\
  match fst (read_xyz e (mem_io e) (fixed xyz_bytes)) with
  | Ok v => f64_is (xyz_X v) 5 (-1) && f64_is (xyz_Y v) 32769 (-3) && f64_is (xyz_Z v) (-5) (-2)
  | _ => false
  end = true.
Proof. envs. Qed.

(** io_handler.rs:323-332, 339-352, 360-376, 386-399, 407-420, 430-443: typed writes into an array, read back with the
    [adjust_endianness_*] functions. *)
Example doc_writes : forall hb ov i64 em pe,
  let e := be_env hb ov i64 em pe in
  let back n b := ne_val e (adjust_array e n b) in
  (let '(r, s) := write_u8 (mem_io e) 42 (fixed [0]) in r = Ok tt /\ mem_data s = [42]) /\
  (let '(r, s) := write_u16 e (mem_io e) 42 (fixed (repeat 0 2)) in r = Ok tt /\ back 2%nat (mem_data s) = 42) /\
  (let '(r, s) := write_u16_array e (mem_io e) [42; 69; 255] (fixed (repeat 0 6)) in r = Ok tt /\
     back 2%nat (firstn 2 (mem_data s)) = 42 /\ back 2%nat (firstn 2 (skipn 2 (mem_data s))) = 69 /\ back 2%nat (skipn 4 (mem_data s)) = 255) /\
  (let '(r, s) := write_u32 e (mem_io e) 42 (fixed (repeat 0 4)) in r = Ok tt /\ back 4%nat (mem_data s) = 42) /\
  (let '(r, s) := write_f32 e (mem_io e) (f32_of_bits 1109917696) (fixed (repeat 0 4)) in r = Ok tt /\ back 4%nat (mem_data s) = 1109917696) /\
  (let '(r, s) := write_u64 e (mem_io e) 42 (fixed (repeat 0 8)) in r = Ok tt /\ back 8%nat (mem_data s) = 42).
Proof. envs. Qed.
(** io_handler.rs:451-460, 468-480: fixed-point writes. *)
Example doc_fixed_point_writes : forall hb ov i64 em pe,
  let e := be_env hb ov i64 em pe in
  (let '(r, s) := write_s15f16 e (mem_io e) (f64_lit 5 (-1)) (fixed (repeat 0 4)) in r = Ok tt /\ mem_data s = [0; 2; 128; 0]) /\
  (let '(r, s) := write_xyz e (mem_io e) (mkXYZ (f64_lit 5 (-1)) (f64_lit 32769 (-3)) (f64_lit (-5) (-2))) (fixed (repeat 0 12)) in
   r = Ok tt /\ mem_data s = xyz_bytes).
Proof. envs. Qed.

(** /repo/src/io/file_mem.rs:25-37 *)
Example doc_file_mem : forall hb ov i64 em pe,
  let e := be_env hb ov i64 em pe in
  let '(r, s) := mem_seek (fixed (repeat 0 15)) (SeekStart 10) in
  let '(w, s') := write_u8 (mem_io e) 42 s in r = Ok tt /\ w = Ok tt /\ nth 10 (mem_data s') 0 = 42.
Proof. envs. Qed.
(** /repo/src/io/file_null.rs:13-28 *)
Example doc_file_null : forall hb ov i64 em pe,
  let e := be_env hb ov i64 em pe in
  fst (null_tell null_new) = Ok 0 /\
  (let '(w, s) := null_write e null_new [42; 69; 123; 7; 255] in
   w = Ok tt /\ fst (null_tell s) = Ok 5 /\ let '(k, s1) := null_seek e s (SeekStart 0) in k = Ok tt /\ fst (read_u32 e (null_io e) s1) = Ok 0).
Proof. envs. Qed.
