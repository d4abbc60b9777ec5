(** Model of the [IOHandler] trait, /repo/src/io/io_handler.rs. *)
From Verif Require Import M_Base M_Endian M_F64.

(** [std::io::SeekFrom]: [Start(u64)], [End(i64)], [Current(i64)]. *)
Inductive seek_from :=
| SeekStart (n : Z)
| SeekEnd (n : Z)
| SeekCurrent (n : Z).

(** io_handler.rs:20-157: the required methods.  [&mut self] becomes a state argument and result.
    [io_read] also returns the caller's buffer, because a failing or lazy implementation may leave
    it partly or wholly as it was.  [close] is modelled with each implementor. *)
Record IOHandler (S : Type) := mkIO {
  io_read : S -> list Z -> res unit * S * list Z;
  io_seek : S -> seek_from -> res unit * S;
  io_tell : S -> res Z * S;
  io_write : S -> list Z -> res unit * S
}.
Arguments mkIO {S}.
Arguments io_read {S}.
Arguments io_seek {S}.
Arguments io_tell {S}.
Arguments io_write {S}.

(** The [?] operator: continue on [Ok], return early on [Err], unwind on panic.
    Cf. used throughout /repo/src/io/io_handler.rs:164-485. *)
Definition bind {S A B : Type} (m : res A * S) (k : A -> S -> res B * S) : res B * S :=
  match m with
  | (Ok a, s) => k a s
  | (Err e, s) => (Err e, s)
  | (Panic, s) => (Panic, s)
  end.

(** [/repo/src/types/cie_xyz.rs:4-8]. *)
Record CIEXYZ := mkXYZ { xyz_X : f64; xyz_Y : f64; xyz_Z : f64 }.

Section Defaults.
  Context {S : Type} (e : env) (h : IOHandler S).

  (** [let mut buf = [0u8; n]; self.read(&mut buf)?; ... buf], the common prefix of
      io_handler.rs:184-185, 201-202, 242-243, 278-279 and of
      /repo/src/types/profile.rs:124-125, 176-177. *)
  Definition read_array (n : nat) (s : S) : res (list Z) * S :=
    match io_read h s (repeat 0 n) with
    | (Ok _, s', buf) => (Ok buf, s')
    | (Err er, s', _) => (Err er, s')
    | (Panic, s', _) => (Panic, s')
    end.

  (** io_handler.rs:164-171.  The result of the second [tell] is only returned after the second
      [seek] succeeded. *)
  Definition reported_size (s : S) : res Z * S :=
    bind (io_tell h s) (fun current_pos s1 =>
    bind (io_seek h s1 (SeekEnd 0)) (fun _ s2 =>
    match io_tell h s2 with
    | (Panic, s3) => (Panic, s3)
    | (result, s3) =>
        bind (io_seek h s3 (SeekStart current_pos)) (fun _ s4 => (result, s4))
    end)).

  (** io_handler.rs:183-188 *)
  Definition read_u8 (s : S) : res Z * S :=
    bind (read_array 1 s) (fun buf s' => (Ok (nth 0 buf 0), s')).

  (** io_handler.rs:200-206 *)
  Definition read_u16 (s : S) : res Z * S :=
    bind (read_array 2 s) (fun buf s' => (Ok (adjust_int e 2 (ne_val e buf)), s')).

  (** io_handler.rs:224-229; returns the caller's buffer. *)
  Fixpoint read_u16_array (buffer : list Z) (s : S) : res unit * S * list Z :=
    match buffer with
    | [] => (Ok tt, s, [])
    | item :: rest =>
        match read_u16 s with
        | (Ok v, s') =>
            let '(r, s'', rest') := read_u16_array rest s' in (r, s'', v :: rest')
        | (Err er, s') => (Err er, s', item :: rest)
        | (Panic, s') => (Panic, s', item :: rest)
        end
    end.

  (** io_handler.rs:241-247 *)
  Definition read_u32 (s : S) : res Z * S :=
    bind (read_array 4 s) (fun buf s' => (Ok (adjust_int e 4 (ne_val e buf)), s')).

  (** io_handler.rs:259-265 *)
  Definition read_f32 (s : S) : res f32 * S :=
    bind (read_u32 s) (fun uint_value s' => (Ok (f32_of_bits uint_value), s')).

  (** io_handler.rs:277-283 *)
  Definition read_u64 (s : S) : res Z * S :=
    bind (read_array 8 s) (fun buf s' => (Ok (adjust_int e 8 (ne_val e buf)), s')).

  (** io_handler.rs:295-298 *)
  Definition read_s15f16 (s : S) : res f64 * S :=
    bind (read_u32 s) (fun w s' =>
      match s15f16_to_f64 e (u32_to_i32 w) with
      | Some x => (Ok x, s')
      | None => (Panic, s')
      end).

  (** io_handler.rs:313-319 *)
  Definition read_xyz (s : S) : res CIEXYZ * S :=
    bind (read_s15f16 s) (fun x s1 =>
    bind (read_s15f16 s1) (fun y s2 =>
    bind (read_s15f16 s2) (fun z s3 => (Ok (mkXYZ x y z), s3)))).

  (** io_handler.rs:333-335 *)
  Definition write_u8 (value : Z) (s : S) : res unit * S := io_write h s [value].

  (** io_handler.rs:353-356 *)
  Definition write_u16 (value : Z) (s : S) : res unit * S :=
    io_write h s (ne_bytes e 2 (adjust_int e 2 value)).

  (** io_handler.rs:377-382 *)
  Fixpoint write_u16_array (buffer : list Z) (s : S) : res unit * S :=
    match buffer with
    | [] => (Ok tt, s)
    | v :: rest => bind (write_u16 v s) (fun _ s' => write_u16_array rest s')
    end.

  (** io_handler.rs:400-403 *)
  Definition write_u32 (value : Z) (s : S) : res unit * S :=
    io_write h s (ne_bytes e 4 (adjust_int e 4 value)).

  (** io_handler.rs:421-426 *)
  Definition write_f32 (value : f32) (s : S) : res unit * S := write_u32 (bits_of_f32 value) s.

  (** io_handler.rs:444-447 *)
  Definition write_u64 (value : Z) (s : S) : res unit * S :=
    io_write h s (ne_bytes e 8 (adjust_int e 8 value)).

  (** io_handler.rs:461-464 *)
  Definition write_s15f16 (value : f64) (s : S) : res unit * S :=
    write_u32 (i32_to_u32 (f64_to_s15f16 value)) s.

  (** io_handler.rs:481-485 *)
  Definition write_xyz (value : CIEXYZ) (s : S) : res unit * S :=
    bind (write_s15f16 (xyz_X value) s) (fun _ s1 =>
    bind (write_s15f16 (xyz_Y value) s1) (fun _ s2 =>
    write_s15f16 (xyz_Z value) s2)).
End Defaults.
