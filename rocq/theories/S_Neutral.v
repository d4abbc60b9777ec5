(** Specification: what curves with neutral parameters (gamma and a are 1, the rest 0) should do. *)
From Coq Require Import Reals List.
From Verif Require Import M_F64 M_CurveReal S_Exact.
Import ListNotations.
Open Scope R_scope.

(** Unchanged; unchanged above zero, else zero (NaN too); zero below zero, else unchanged (NaN too). *)
Definition keep (x : ext) : ext := x.
Definition above (x : ext) : ext := if ext_lt (Fin 0) x then x else Fin 0.
Definition not_below (x : ext) : ext := if ext_lt x (Fin 0) then Fin 0 else x.

(** The first power is the number itself. *)
Definition first_power (pow : f64 -> f64 -> f64) : Prop := forall x, exact (pow x (f64_lit 1 0)) = exact x.
(** Type, further parameters for a break at [d], and the expected function. *)
Definition neutral (d : f64) : list (Z * list f64 * (ext -> ext)) :=
  let I := f64_lit 1 0 in let O := f64_lit 0 0 in
  [(1%Z, [I], keep); ((-1)%Z, [I], keep);
   (2%Z, [I; I; O], above); ((-2)%Z, [I; I; O], not_below);
   (3%Z, [I; I; O; O], above); ((-3)%Z, [I; I; O; O], above);
   (4%Z, [I; I; O; I; d], keep); ((-4)%Z, [I; I; O; I; d], keep);
   (5%Z, [I; I; O; I; d; O; O], keep); ((-5)%Z, [I; I; O; I; d; O; O], keep);
   (6%Z, [I; I; O; O], not_below); ((-6)%Z, [I; I; O; O], not_below)].
