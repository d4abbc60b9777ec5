(** Model of /repo/src/io/file_mem.rs: a [std::io::Cursor] over a byte buffer.

    The four buffer types that implement [Cursor<T>: Write] (file_mem.rs:15-19) fall in two
    groups: [Vec<u8>] and [&mut Vec<u8>] grow on write, [&mut [u8]] and [Box<[u8]>] do not. *)
From Verif Require Import M_Base M_IO.

(** file_mem.rs:39-45; [growable] selects the group. *)
Record FileMem := mkMem { growable : bool; mem_data : list Z; mem_pos : Z }.

(** The buffer length used by [Cursor], /repo/src/io/file_mem.rs:44. *)
Definition zlen (l : list Z) : Z := Z.of_nat (length l).

(** file_mem.rs:65-69 [FileMem::new] = [Cursor::new(buf)]: position 0. *)
Definition mem_new (grow : bool) (buf : list Z) : FileMem := mkMem grow buf 0.

(** [isize::MAX], the largest allocation; growing a [Vec] beyond it panics ("capacity overflow").
    Running out of memory below that limit aborts the process and is not modelled.
    Cf. /repo/src/io/file_mem.rs:95. *)
Definition isize_max (e : env) : Z := usize_lim e / 2 - 1.

(** file_mem.rs:77-79 [self.cursor.read_exact(buf)]: std's [Cursor::read_exact], i.e.
    [fill_buf] = the bytes from [min pos len] on, then [<&[u8]>::read_exact] which fails without
    touching [buf] when there are too few; the position advances only on success
    (or is moved to the end on failure in newer std, [eof_moves]). *)
Definition mem_read (e : env) (s : FileMem) (buf : list Z) : res unit * FileMem * list Z :=
  let amt := Z.min (mem_pos s) (zlen (mem_data s)) in
  let rest := skipn (Z.to_nat amt) (mem_data s) in
  let n := length buf in
  if (length rest <? n)%nat
  then (Err UnexpectedEof,
        (if eof_moves e then mkMem (growable s) (mem_data s) (zlen (mem_data s)) else s), buf)
  else (Ok tt, mkMem (growable s) (mem_data s) (mem_pos s + Z.of_nat n), firstn n rest).

(** file_mem.rs:81-84 [self.cursor.seek(pos)?]: std's [Cursor::seek]: checked u64 addition of
    the signed offset. *)
Definition mem_seek (s : FileMem) (pos : seek_from) : res unit * FileMem :=
  let go (p : Z) := (Ok tt, mkMem (growable s) (mem_data s) p) in
  let checked (base n : Z) :=
    let p := base + n in
    if (0 <=? p) && (p <? 2 ^ 64) then go p else (Err InvalidInput, s) in
  match pos with
  | SeekStart n => go n
  | SeekEnd n => checked (zlen (mem_data s)) n
  | SeekCurrent n => checked (mem_pos s) n
  end.

(** file_mem.rs:86-88 [close] *)
Definition mem_close (s : FileMem) : res unit := Ok tt.

(** file_mem.rs:90-92 [self.cursor.position() as usize] *)
Definition mem_tell (e : env) (s : FileMem) : res Z * FileMem :=
  (Ok (as_usize e (mem_pos s)), s).

(** One [Cursor::write] call on a growable buffer (std's [vec_write]): the position must fit in
    [usize]; the vector is zero-extended up to it, then overwritten / extended.  All of [buf] is
    taken. *)
Definition vec_write (e : env) (s : FileMem) (buf : list Z) : res Z * FileMem :=
  let pos := mem_pos s in
  let len := zlen (mem_data s) in
  if usize_lim e <=? pos then (Err InvalidInput, s)
  else if isize_max e <? pos + zlen buf then (Panic, s)
  else
    let padded := mem_data s ++ repeat 0 (Z.to_nat (pos - len)) in
    let p := Z.to_nat pos in
    (Ok (zlen buf),
     mkMem true (firstn p padded ++ buf ++ skipn (p + length buf) padded) (pos + zlen buf)).

(** One [Cursor::write] call on a fixed buffer (std's [slice_write]): takes what fits. *)
Definition slice_write (s : FileMem) (buf : list Z) : res Z * FileMem :=
  let d := mem_data s in
  let pos := Z.to_nat (Z.min (mem_pos s) (zlen d)) in
  let amt := Nat.min (length buf) (length d - pos) in
  (Ok (Z.of_nat amt),
   mkMem false (firstn pos d ++ firstn amt buf ++ skipn (pos + amt) d)
         (mem_pos s + Z.of_nat amt)).

(** Dispatch on the buffer type, /repo/src/io/file_mem.rs:15-19,95. *)
Definition mem_write_once (e : env) (s : FileMem) (buf : list Z) : res Z * FileMem :=
  if growable s then vec_write e s buf else slice_write s buf.

(** file_mem.rs:94-96 [self.cursor.write_all(buf)]: std's [Write::write_all] loop: while bytes
    remain, call [write]; 0 means [WriteZero].  [fuel] bounds the iterations; every iteration
    takes at least one byte, so [length buf + 1] always suffices ([Panic] on exhaustion is
    unreachable, see [P_FileMem.mem_write_fuel]). *)
Fixpoint mem_write_all (e : env) (fuel : nat) (s : FileMem) (buf : list Z) : res unit * FileMem :=
  match buf with
  | [] => (Ok tt, s)
  | _ =>
      match fuel with
      | O => (Panic, s)
      | S f =>
          match mem_write_once e s buf with
          | (Ok n, s') =>
              if n =? 0 then (Err WriteZero, s')
              else mem_write_all e f s' (skipn (Z.to_nat n) buf)
          | (Err er, s') => (Err er, s')
          | (Panic, s') => (Panic, s')
          end
      end
  end.

(** file_mem.rs:94-96.  Newer std overrides [write_all] of the growable buffers by one [vec_write]; its
    override for the other ones does what the loop does. *)
Definition mem_write (e : env) (s : FileMem) (buf : list Z) : res unit * FileMem :=
  if growable s && pads_empty e
  then match vec_write e s buf with
       | (Ok _, s') => (Ok tt, s')
       | (Err er, s') => (Err er, s')
       | (Panic, s') => (Panic, s')
       end
  else mem_write_all e (S (length buf)) s buf.

(** file_mem.rs:72-97 [impl IOHandler for FileMem<T>] *)
Definition mem_io (e : env) : IOHandler FileMem :=
  mkIO (mem_read e) mem_seek (mem_tell e) (mem_write e).
