(** Specification: a number written in decimal. *)
From Coq Require Import ZArith List.
Import ListNotations.
Open Scope Z_scope.

(** The number an ASCII digit string stands for. *)
Definition read_decimal (l : list Z) : Z := fold_left (fun v c => 10 * v + (c - 48)) l 0.
(** [l] is the usual way to write [n]: digits only, at least one, no superfluous zero in front. *)
Definition written (n : Z) (l : list Z) : Prop :=
  Forall (fun c => 48 <= c <= 57) l /\ l <> [] /\ (forall r, l = 48 :: r -> r = []) /\ read_decimal l = n.
