(** Specification: bytes and positional byte order, independent of the model. *)
From Coq Require Export ZArith List Bool Lia.
Export ListNotations.
Open Scope Z_scope.

Definition is_byte (b : Z) : Prop := 0 <= b < 256.
Definition are_bytes (l : list Z) : Prop := Forall is_byte l.

(** Value of a byte string read most significant byte first. *)
Definition big_value (l : list Z) : Z := fold_left (fun acc b => 256 * acc + b) l 0.

(** Value of a byte string read least significant byte first: byte [i] has weight 256^i. *)
Fixpoint weigh (i : Z) (l : list Z) : Z :=
  match l with
  | [] => 0
  | b :: r => b * 256 ^ i + weigh (i + 1) r
  end.
Definition little_value (l : list Z) : Z := weigh 0 l.

(** The byte of [v] of weight 256^i. *)
Definition byte_of (v : Z) (i : Z) : Z := (v / 256 ^ i) mod 256.

(** The [n]-byte encodings of [v]. *)
Definition little_enc (n : nat) (v : Z) : list Z :=
  map (fun i => byte_of v (Z.of_nat i)) (seq 0 n).
Definition big_enc (n : nat) (v : Z) : list Z :=
  map (fun i => byte_of v (Z.of_nat n - 1 - Z.of_nat i)) (seq 0 n).

(** Unsigned [n]-byte integers. *)
Definition is_uint (n : nat) (v : Z) : Prop := 0 <= v < 256 ^ Z.of_nat n.

(** The stream's byte order: big-endian, little-endian with the [use_little_endian] feature. *)
Definition wire_enc (little : bool) (n : nat) (v : Z) : list Z :=
  if little then little_enc n v else big_enc n v.
Definition wire_value (little : bool) (l : list Z) : Z :=
  if little then little_value l else big_value l.
