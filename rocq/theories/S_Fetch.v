(** Specification: fetching the data of a tag through a profile's handler. *)
From Verif Require Import M_Base M_IO S_Bytes S_File.
Local Open Scope Z_scope.

(** The calls a client makes for the [n] bytes at offset [o]. *)
Definition fetch (o n : Z) : list call := [CSeek (SeekStart o); CRead (Z.to_nat n)].

(** The [n] bytes of [d] from offset [o] on; [None] when they are not all there. *)
Definition bytes_at (d : list Z) (o n : Z) : option (list Z) :=
  if (0 <=? o) && (0 <=? n) && (o + n <=? Z.of_nat (length d))
  then Some (map (fun i => nth i d 0) (seq (Z.to_nat o) (Z.to_nat n))) else None.
