(** Specification: which bytes of a profile file decide what opening it gives (C104). *)
From Coq Require Import ZArith List.
Open Scope nat_scope.

(** Header bytes nobody looks at: preferred CMM, platform, illuminant, reserved bytes. *)
Definition ignored (p : nat) : Prop := 4 <= p < 8 \/ 40 <= p < 44 \/ 68 <= p < 80 \/ 100 <= p < 128.
(** Header bytes that are kept in the profile: version to date, flags to rendering intent, creator and id. *)
Definition kept (p : nat) : Prop := 8 <= p < 36 \/ 44 <= p < 68 \/ 80 <= p < 100.
Definition agree_on (P : nat -> Prop) (d d' : list Z) : Prop := forall p, P p -> nth p d 0%Z = nth p d' 0%Z.
