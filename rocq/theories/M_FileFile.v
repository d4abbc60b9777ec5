(** Model of /repo/src/io/file_file.rs: [IOHandler] for [std::fs::File] on a regular file.

    The operating system's freedom is explicit: each [read]/[write] system call consumes one event
    of an arbitrary schedule, which may shorten the transfer, interrupt it (EINTR) or fail it.
    Not modelled: other processes changing the file, file-size limits below 2^63-1. *)
From Verif Require Import M_Base M_IO M_FileMem.

(** How a system call made by file_file.rs:7,16,26 may end. *)
Inductive os_event :=
| EvFull                 (* transfer as much as possible *)
| EvShort (k : nat)      (* transfer at most k bytes (but at least one if any can be) *)
| EvIntr                 (* ErrorKind::Interrupted *)
| EvFail.                (* any other error *)

(** An open file description: content, offset, access mode, and the schedule still to come
    ([] = only [EvFull] from here on).
    Cf. /repo/src/io/file_file.rs:5. *)
Record File := mkFile {
  f_data : list Z;
  f_pos : Z;
  f_readable : bool;
  f_writable : bool;
  f_sched : list os_event
}.

(** The event met by the next system call of file_file.rs:7,26. *)
Definition ev_head (l : list os_event) : os_event := match l with [] => EvFull | ev :: _ => ev end.
(** The events left after a system call of file_file.rs:7,26. *)
Definition ev_tail (l : list os_event) : list os_event := match l with [] => [] | _ :: r => r end.

(** Number of bytes a call moves when [avail] could be moved.
    Short transfers in the loops of file_file.rs:7,26. *)
Definition ev_amount (ev : os_event) (avail : nat) : nat :=
  match ev with
  | EvShort k => Nat.min avail (Nat.max 1 k)
  | _ => avail
  end.

(** Outcome of one system call made by file_file.rs:7,26. *)
Inductive sys_res (A : Type) := SysOk (a : A) | SysIntr | SysFail.
Arguments SysOk {A}.
Arguments SysIntr {A}.
Arguments SysFail {A}.

(** [read(2)] on a regular file: nothing past the end; EBADF when not open for reading.
    Called by the [read_exact] of file_file.rs:7. *)
Definition sys_read (s : File) (n : nat) : sys_res (list Z) * File :=
  let ev := ev_head (f_sched s) in
  let s0 := mkFile (f_data s) (f_pos s) (f_readable s) (f_writable s) (ev_tail (f_sched s)) in
  if negb (f_readable s) then (SysFail, s0)
  else match ev with
       | EvIntr => (SysIntr, s0)
       | EvFail => (SysFail, s0)
       | _ =>
           let rest := skipn (Z.to_nat (Z.min (f_pos s) (zlen (f_data s)))) (f_data s) in
           let k := ev_amount ev (Nat.min n (length rest)) in
           (SysOk (firstn k rest),
            mkFile (f_data s) (f_pos s + Z.of_nat k) (f_readable s) (f_writable s)
                   (ev_tail (f_sched s)))
       end.

(** Largest file offset ([off_t::MAX]).
    Limits file_file.rs:11,26. *)
Definition off_max : Z := 2 ^ 63 - 1.

(** Content after storing [bytes] at [pos], zero-filling a gap.
    Effect of file_file.rs:26. *)
Definition store_at (d : list Z) (pos : Z) (bytes : list Z) : list Z :=
  let padded := d ++ repeat 0 (Z.to_nat (pos - zlen d)) in
  let p := Z.to_nat pos in
  firstn p padded ++ bytes ++ skipn (p + length bytes) padded.

(** [write(2)] on a regular file: EBADF when not open for writing, EFBIG at the offset limit.
    Called by the [write_all] of file_file.rs:26. *)
Definition sys_write (s : File) (buf : list Z) : sys_res Z * File :=
  let ev := ev_head (f_sched s) in
  let s0 := mkFile (f_data s) (f_pos s) (f_readable s) (f_writable s) (ev_tail (f_sched s)) in
  if negb (f_writable s) then (SysFail, s0)
  else match ev with
       | EvIntr => (SysIntr, s0)
       | EvFail => (SysFail, s0)
       | _ =>
           let room := Z.to_nat (Z.min (zlen buf) (off_max - f_pos s)) in
           if (room =? 0)%nat && negb (zlen buf =? 0) then (SysFail, s0)
           else
             let k := ev_amount ev room in
             (SysOk (Z.of_nat k),
              mkFile (store_at (f_data s) (f_pos s) (firstn k buf)) (f_pos s + Z.of_nat k)
                     (f_readable s) (f_writable s) (ev_tail (f_sched s)))
       end.

(** file_file.rs:6-8 [self.read_exact(buf)]: std's [default_read_exact] loop.  [got] is what has
    already been placed at the front of the caller's buffer, [todo] the part still to be filled.
    Fuel exhaustion ([Panic]) is unreachable with the fuel used by [file_read], see
    [P_FileFile.file_read_fuel]. *)
Fixpoint read_exact_loop (fuel : nat) (s : File) (got todo : list Z) : res unit * File * list Z :=
  match todo with
  | [] => (Ok tt, s, got)
  | _ =>
      match fuel with
      | O => (Panic, s, got ++ todo)
      | S f =>
          match sys_read s (length todo) with
          | (SysOk [], s') => (Err UnexpectedEof, s', got ++ todo)
          | (SysOk bs, s') => read_exact_loop f s' (got ++ bs) (skipn (length bs) todo)
          | (SysIntr, s') => read_exact_loop f s' got todo
          | (SysFail, s') => (Err OsError, s', got ++ todo)
          end
      end
  end.

(** file_file.rs:6-8. *)
Definition file_read (s : File) (buf : list Z) : res unit * File * list Z :=
  read_exact_loop (length (f_sched s) + length buf + 1) s [] buf.

(** file_file.rs:10-13 [Seek::seek(self, pos)?]: lseek(2).  [Start(n)] is passed as [n as i64], so
    values of 2^63 and more are negative offsets (EINVAL = [InvalidInput]). *)
Definition file_seek (s : File) (pos : seek_from) : res unit * File :=
  let go (p : Z) :=
    (Ok tt, mkFile (f_data s) p (f_readable s) (f_writable s) (f_sched s)) in
  let checked (p : Z) :=
    if p <? 0 then (Err InvalidInput, s)
    else if off_max <? p then (Err OsError, s) else go p in
  match pos with
  | SeekStart n => if off_max <? n then (Err InvalidInput, s) else go n
  | SeekEnd n => checked (zlen (f_data s) + n)
  | SeekCurrent n => checked (f_pos s + n)
  end.

(** file_file.rs:21-23 [self.stream_position()? as usize] *)
Definition file_tell (e : env) (s : File) : res Z * File := (Ok (as_usize e (f_pos s)), s).

(** file_file.rs:25-27 [self.write_all(buf)]: std's [write_all] loop. *)
Fixpoint file_write_loop (fuel : nat) (s : File) (buf : list Z) : res unit * File :=
  match buf with
  | [] => (Ok tt, s)
  | _ =>
      match fuel with
      | O => (Panic, s)
      | S f =>
          match sys_write s buf with
          | (SysOk n, s') =>
              if n =? 0 then (Err WriteZero, s')
              else file_write_loop f s' (skipn (Z.to_nat n) buf)
          | (SysIntr, s') => file_write_loop f s' buf
          | (SysFail, s') => (Err OsError, s')
          end
      end
  end.

(** file_file.rs:25-27. *)
Definition file_write (s : File) (buf : list Z) : res unit * File :=
  file_write_loop (length (f_sched s) + length buf + 1) s buf.

(** file_file.rs:5-28 [impl IOHandler for File] ([close], lines 15-19, is in [M_Durable]). *)
Definition file_io (e : env) : IOHandler File :=
  mkIO file_read file_seek (file_tell e) file_write.
