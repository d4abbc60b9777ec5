(** Model of /repo/src/io/big_endian.rs, /repo/src/io/little_endian.rs and the re-exports of
    /repo/src/io.rs:44-69.  The Rust functions come in three widths with identical bodies; the
    model keeps the width as a parameter [n] in bytes (2, 4, 8). *)
From Verif Require Import M_Base.

(** big_endian.rs:4-19 [adjust_endianness_{16,32,64}]: [uN::from_be_bytes(value).to_ne_bytes()]. *)
Definition be_adjust_array (e : env) (n : nat) (value : list Z) : list Z :=
  ne_bytes e n (be_val value).

(** big_endian.rs:22-34 [adjust_endianness_u{16,32,64}]: [value.to_be()]. *)
Definition be_adjust_int (e : env) (n : nat) (value : Z) : Z := to_be e n value.

(** little_endian.rs:4-19: [uN::from_le_bytes(value).to_ne_bytes()]. *)
Definition le_adjust_array (e : env) (n : nat) (value : list Z) : list Z :=
  ne_bytes e n (le_val value).

(** little_endian.rs:22-34: [value.to_le()]. *)
Definition le_adjust_int (e : env) (n : nat) (value : Z) : Z := to_le e n value.

(** io.rs:44-69: the functions re-exported as [lcms2::io::adjust_endianness_*]. *)
Definition adjust_array (e : env) (n : nat) (value : list Z) : list Z :=
  if feat_le e then le_adjust_array e n value else be_adjust_array e n value.
(** io.rs:44-69, the integer functions. *)
Definition adjust_int (e : env) (n : nat) (value : Z) : Z :=
  if feat_le e then le_adjust_int e n value else be_adjust_int e n value.
