(** Model of /repo/src/io/file_null.rs. *)
From Verif Require Import M_Base M_IO.

(** file_null.rs:30-33 *)
Record FileNull := mkNull { pointer : Z; used_space : Z }.

(** file_null.rs:44-46 [FileNull::new] *)
Definition null_new : FileNull := mkNull 0 0.

(** file_null.rs:49-53 [Default for FileNull] *)
Definition null_default : FileNull := null_new.

(** file_null.rs:56-61 [read]: advances, never touches [buf]. *)
Definition null_read (e : env) (s : FileNull) (buf : list Z) : res unit * FileNull * list Z :=
  let len := Z.of_nat (length buf) in
  match usize_add e (pointer s) len with
  | Some p => (Ok tt, mkNull p (used_space s), buf)
  | None => (Panic, s, buf)
  end.

(** file_null.rs:63-76 [seek]: [value as usize], then [+] for [End] and [+=] for [Current]. *)
Definition null_seek (e : env) (s : FileNull) (pos : seek_from) : res unit * FileNull :=
  match pos with
  | SeekStart value => (Ok tt, mkNull (as_usize e value) (used_space s))
  | SeekEnd value =>
      match usize_add e (used_space s) (as_usize e value) with
      | Some p => (Ok tt, mkNull p (used_space s))
      | None => (Panic, s)
      end
  | SeekCurrent value =>
      match usize_add e (pointer s) (as_usize e value) with
      | Some p => (Ok tt, mkNull p (used_space s))
      | None => (Panic, s)
      end
  end.

(** file_null.rs:78-80 [close] *)
Definition null_close (s : FileNull) : res unit := Ok tt.

(** file_null.rs:82-84 [tell] *)
Definition null_tell (s : FileNull) : res Z * FileNull := (Ok (pointer s), s).

(** file_null.rs:86-95 [write] *)
Definition null_write (e : env) (s : FileNull) (buf : list Z) : res unit * FileNull :=
  let len := Z.of_nat (length buf) in
  match usize_add e (pointer s) len with
  | Some p => (Ok tt, mkNull p (if used_space s <? p then p else used_space s))
  | None => (Panic, s)
  end.

(** file_null.rs:55-96 [impl IOHandler for FileNull] *)
Definition null_io (e : env) : IOHandler FileNull :=
  mkIO (null_read e) (null_seek e) null_tell (null_write e).
