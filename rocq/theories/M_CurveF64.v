(** The binary64 instance of the operations of [M_Curve].  [powf], [log10], [exp] come from the
    platform's libm, whose accuracy is not specified: they are parameters. *)
From Flocq Require Import IEEE754.BinarySingleNaN.
From Verif Require Import M_Base M_F64 M_Curve.

(** Literals of /repo/src/plugins/para_curve.rs and /repo/src/lib.rs:52. *)
Definition f64_cst (l : flit) : f64 :=
  match l with
  | L0 => f64_lit 0 0
  | Lhalf => f64_lit 1 (-1)
  | L1 => f64_lit 1 0
  | L2 => f64_lit 2 0
  | L10 => f64_lit 10 0
  | Ltol => f64_lit 7378697629483821 (-66)        (* the f64 nearest to 0.0001 *)
  | Lplus_inf => f64_lit 10000000000000000000000 0 (* 1e22, exact *)
  end.

(** [<], as at para_curve.rs:99. *)
Definition f64_ltb (x y : f64) : bool :=
  match Bcompare x y with Some Lt => true | _ => false end.
(** [>=], as at para_curve.rs:139. *)
Definition f64_geb (x y : f64) : bool :=
  match Bcompare x y with Some Gt | Some Eq => true | _ => false end.

(** [f64::max].
    Cf. para_curve.rs:186. *)
Definition f64_max (x y : f64) : f64 :=
  match x, y with
  | B754_nan, _ => y
  | _, B754_nan => x
  | _, _ => if f64_ltb x y then y else x
  end.

(** The operations of para_curve.rs:93-467 at binary64. *)
Definition f64_ops (pow : f64 -> f64 -> f64) (log10 exp : f64 -> f64) : FOps f64 :=
  mkF f64_cst Bopp Babs (Bplus mode_NE) (Bminus mode_NE) (Bmult mode_NE) (Bdiv mode_NE)
      f64_ltb f64_geb f64_max pow log10 exp.
