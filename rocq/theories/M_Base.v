(** Base vocabulary of the model: results, build settings, machine integers, byte strings. *)
From Coq Require Export ZArith List Bool Lia.
Export ListNotations.
Open Scope Z_scope.

(** [std::io::ErrorKind] values the modelled code can produce or propagate
    (/repo/src/types/profile.rs:3,118 uses [InvalidData]; the others come from the std
    functions called in /repo/src/io/file_mem.rs:77-96 and /repo/src/io/file_file.rs:6-27).
    [OsError] stands for every other error an operating system call may return. *)
Inductive io_err :=
| UnexpectedEof
| WriteZero
| InvalidInput
| InvalidData
| NotFound
| OsError.

(** Outcome of a Rust call: [Ok]/[Err] of [std::io::Result] (/repo/src/io/io_handler.rs:8), or a
    panic. *)
Inductive res (A : Type) :=
| Ok (a : A)
| Err (e : io_err)
| Panic.
Arguments Ok {A} a.
Arguments Err {A} e.
Arguments Panic {A}.

(** Build and platform settings that change the observable behaviour of the code.
    - [host_big]: [target_endian] (used by [to_ne_bytes]/[from_ne_bytes]/[to_be]/[to_le] in
      /repo/src/io/big_endian.rs, little_endian.rs);
    - [feat_le]: cargo feature [use_little_endian] (/repo/Cargo.toml:12, /repo/src/io.rs:44-69);
    - [ovf]: arithmetic overflow checks ([debug_assertions]; panics instead of wrapping);
    - [is64]: pointer width 64 (else 32);
    - [eof_moves]: whether [Cursor::read_exact] moves the cursor to the end when it fails
      (std changed this; both behaviours are covered);
    - [pads_empty]: whether [Cursor<Vec<u8>>::write_all] is one [write] whatever the data (as in newer
      std), so that writing nothing extends the vector up to the position, instead of a loop that does
      not call [write] for no data (/repo/src/io/file_mem.rs:94-96; both behaviours are covered). *)
Record env := mkEnv {
  host_big : bool;
  feat_le : bool;
  ovf : bool;
  is64 : bool;
  eof_moves : bool;
  pads_empty : bool
}.

(** Width of [usize].
    Cf. /repo/src/types/profile.rs:34,152 and /repo/src/io/file_null.rs:31-32 ([usize]). *)
Definition usize_bits (e : env) : Z := if is64 e then 64 else 32.

(** Largest [usize] plus one.
    Cf. /repo/src/io/file_null.rs:31-32 ([usize]). *)
Definition usize_lim (e : env) : Z := 2 ^ usize_bits e.

(** Addition of two in-range [usize] values with the [+]/[+=] operator: panics under overflow
    checks ([None]), wraps otherwise.
    Cf. /repo/src/io/file_null.rs:58,69,72,88. *)
Definition usize_add (e : env) (a b : Z) : option Z :=
  let s := a + b in
  if s <? usize_lim e then Some s
  else if ovf e then None else Some (s mod usize_lim e).

(** [x as usize] for an integer [x] of any type (truncation / sign extension).
    Cf. /repo/src/io/file_null.rs:66-72, /repo/src/io/file_mem.rs:91, /repo/src/io/file_file.rs:22, /repo/src/types/profile.rs:152. *)
Definition as_usize (e : env) (x : Z) : Z := x mod usize_lim e.

(** Addition of two [u32] values.
    Cf. /repo/src/types/profile.rs:182. *)
Definition u32_add (e : env) (a b : Z) : option Z :=
  let s := a + b in
  if s <? 2 ^ 32 then Some s
  else if ovf e then None else Some (s mod 2 ^ 32).

(** [transmute::<u32, i32>] (two's complement), e.g. /repo/src/io/io_handler.rs:296. *)
Definition u32_to_i32 (x : Z) : Z := if x <? 2 ^ 31 then x else x - 2 ^ 32.

(** [transmute::<i32, u32>], e.g. /repo/src/io/io_handler.rs:463. *)
Definition i32_to_u32 (x : Z) : Z := x mod 2 ^ 32.

(** [i32::abs]: panics on [i32::MIN] under overflow checks, returns [i32::MIN] otherwise.
    Cf. /repo/src/io/io_handler.rs:490, /repo/src/plugins/para_curve.rs:85. *)
Definition i32_abs (e : env) (x : Z) : option Z :=
  if x =? - 2 ^ 31 then (if ovf e then None else Some x) else Some (Z.abs x).

(** [uN::to_le_bytes] with N = 8n.
    Used by [to_ne_bytes]/[to_le], /repo/src/io/little_endian.rs:5-19. *)
Fixpoint le_bytes (n : nat) (v : Z) : list Z :=
  match n with
  | O => []
  | S m => v mod 256 :: le_bytes m (v / 256)
  end.

(** [uN::from_le_bytes].
    Cf. /repo/src/io/little_endian.rs:5,11,17. *)
Fixpoint le_val (l : list Z) : Z :=
  match l with
  | [] => 0
  | b :: r => b + 256 * le_val r
  end.

(** [uN::to_be_bytes] / [uN::from_be_bytes].
    Cf. /repo/src/types/signature.rs:14,46,91. *)
Definition be_bytes (n : nat) (v : Z) : list Z := rev (le_bytes n v).
(** /repo/src/io/big_endian.rs:5,11,17, /repo/src/types/signature.rs:8,51,58,65,72. *)
Definition be_val (l : list Z) : Z := le_val (rev l).

(** [uN::to_ne_bytes] / [uN::from_ne_bytes]: the host's order.
    Cf. /repo/src/io/big_endian.rs:4-19, /repo/src/io/io_handler.rs:354,401,445. *)
Definition ne_bytes (e : env) (n : nat) (v : Z) : list Z :=
  if host_big e then be_bytes n v else le_bytes n v.
(** /repo/src/io/io_handler.rs:204,245,281. *)
Definition ne_val (e : env) (l : list Z) : Z :=
  if host_big e then be_val l else le_val l.

(** [uN::swap_bytes], [uN::to_be], [uN::to_le].
    Used by [to_be]/[to_le], /repo/src/io/big_endian.rs:22-34. *)
Definition swap_bytes (n : nat) (v : Z) : Z := le_val (be_bytes n v).
(** /repo/src/io/big_endian.rs:22-34. *)
Definition to_be (e : env) (n : nat) (v : Z) : Z := if host_big e then v else swap_bytes n v.
(** /repo/src/io/little_endian.rs:22-34. *)
Definition to_le (e : env) (n : nat) (v : Z) : Z := if host_big e then swap_bytes n v else v.
