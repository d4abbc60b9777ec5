(** The exact-arithmetic instance of the operations of [M_Curve]: real numbers plus the IEEE special
    values.  Simplifications against f64: no rounding, no overflow or underflow, one zero (taken as +0).
    The special cases of [ext_pow], [ext_log10], [ext_exp] are those of IEEE 754-2019 section 9.2 /
    C99 Annex F (what std's [f64::powf]/[log10]/[exp] call). *)
From Coq Require Import Reals.
From Verif Require Import M_Base M_Curve.
Open Scope R_scope.

(** Values of the [f64] type of /repo/src/plugins/para_curve.rs:93. *)
Inductive ext := Fin (x : R) | PInf | NInf | NaN.

(** [<] on reals, as at para_curve.rs:99. *)
Definition Rltb (x y : R) : bool := if Rlt_dec x y then true else false.
(** [==] on reals, needed by the IEEE special cases of [powf], para_curve.rs:106. *)
Definition Reqb (x y : R) : bool := if Req_EM_T x y then true else false.

(** The literals of para_curve.rs and /repo/src/lib.rs:52. *)
Definition ext_lit (l : flit) : ext :=
  Fin (match l with
       | L0 => 0 | Lhalf => / 2 | L1 => 1 | L2 => 2 | L10 => 10
       | Ltol => / 10000 | Lplus_inf => 10 ^ 22
       end).

(** Unary minus, as at para_curve.rs:138. *)
Definition ext_neg (x : ext) : ext :=
  match x with Fin a => Fin (- a) | PInf => NInf | NInf => PInf | NaN => NaN end.
(** [f64::abs], as at para_curve.rs:100. *)
Definition ext_abs (x : ext) : ext :=
  match x with Fin a => Fin (Rabs a) | PInf => PInf | NInf => PInf | NaN => NaN end.
(** [+], as at para_curve.rs:140. *)
Definition ext_add (x y : ext) : ext :=
  match x, y with
  | Fin a, Fin b => Fin (a + b)
  | NaN, _ | _, NaN | PInf, NInf | NInf, PInf => NaN
  | PInf, _ | _, PInf => PInf
  | NInf, _ | _, NInf => NInf
  end.
(** [-], as at para_curve.rs:100. *)
Definition ext_sub (x y : ext) : ext := ext_add x (ext_neg y).
(** An infinity with the sign of [s] (positive when [s] is zero).
    Results of IEEE [/] and [*], para_curve.rs:138,140. *)
Definition inf_of (s : R) : ext := if Rltb s 0 then NInf else PInf.
(** Sign of an operand of [*], as at para_curve.rs:140. *)
Definition ext_sgn (x : ext) : R :=
  match x with Fin a => a | PInf => 1 | NInf => -1 | NaN => 0 end.
(** [*], as at para_curve.rs:140. *)
Definition ext_mul (x y : ext) : ext :=
  match x, y with
  | Fin a, Fin b => Fin (a * b)
  | NaN, _ | _, NaN => NaN
  | _, _ => if Reqb (ext_sgn x) 0 then NaN else if Reqb (ext_sgn y) 0 then NaN
            else inf_of (ext_sgn x * ext_sgn y)
  end.
(** [/], as at para_curve.rs:138. *)
Definition ext_div (x y : ext) : ext :=
  match x, y with
  | NaN, _ | _, NaN => NaN
  | Fin a, Fin b => if Reqb b 0 then (if Reqb a 0 then NaN else inf_of a) else Fin (a / b)
  | Fin _, _ => Fin 0
  | _, Fin b => if Rltb b 0 then ext_neg x else x
  | _, _ => NaN
  end.
(** [<], as at para_curve.rs:99. *)
Definition ext_lt (x y : ext) : bool :=
  match x, y with
  | NaN, _ | _, NaN => false
  | Fin a, Fin b => Rltb a b
  | NInf, NInf => false
  | NInf, _ => true
  | _, NInf => false
  | PInf, _ => false
  | _, PInf => true
  end.
(** [>=], as at para_curve.rs:139. *)
Definition ext_ge (x y : ext) : bool :=
  match x, y with
  | NaN, _ | _, NaN => false
  | _, _ => negb (ext_lt x y)
  end.
(** [f64::max], para_curve.rs:186. *)
Definition ext_max (x y : ext) : ext :=
  match x, y with
  | NaN, _ => y
  | _, NaN => x
  | _, _ => if ext_lt x y then y else x
  end.

(** IEEE [pow] distinguishes integer exponents, para_curve.rs:106. *)
Definition is_integer (y : R) : bool := Reqb (IZR (Int_part y)) y.

(** [f64::powf], as at para_curve.rs:106. *)
Definition ext_pow (x y : ext) : ext :=
  match x, y with
  | _, Fin b => if Reqb b 0 then Fin 1
    else match x with
         | NaN => NaN
         | Fin a =>
             if Rltb 0 a then Fin (Rpower a b)
             else if Reqb a 0 then (if Rltb 0 b then Fin 0 else PInf)
             else if is_integer b
                  then (if Z.even (Int_part b) then Fin (Rpower (- a) b) else Fin (- Rpower (- a) b))
                  else NaN
         | PInf => if Rltb 0 b then PInf else Fin 0
         | NInf => if Rltb 0 b
                   then (if is_integer b && Z.odd (Int_part b) then NInf else PInf)
                   else Fin 0
         end
  | Fin a, NaN => if Reqb a 1 then Fin 1 else NaN
  | _, NaN => NaN
  | NaN, _ => NaN
  | Fin a, PInf => if Reqb (Rabs a) 1 then Fin 1 else if Rltb (Rabs a) 1 then Fin 0 else PInf
  | Fin a, NInf => if Reqb (Rabs a) 1 then Fin 1 else if Rltb (Rabs a) 1 then PInf else Fin 0
  | _, PInf => PInf
  | _, NInf => Fin 0
  end.
(** [f64::log10], as at para_curve.rs:376. *)
Definition ext_log10 (x : ext) : ext :=
  match x with
  | Fin a => if Rltb 0 a then Fin (ln a / ln 10) else if Reqb a 0 then NInf else NaN
  | PInf => PInf
  | NInf | NaN => NaN
  end.
(** [f64::exp], para_curve.rs:450. *)
Definition ext_exp (x : ext) : ext :=
  match x with Fin a => Fin (exp a) | PInf => PInf | NInf => Fin 0 | NaN => NaN end.

(** The operations of para_curve.rs:93-467 in exact arithmetic. *)
Definition ext_ops : FOps ext :=
  mkF ext_lit ext_neg ext_abs ext_add ext_sub ext_mul ext_div ext_lt ext_ge ext_max
      ext_pow ext_log10 ext_exp.

(** [default_eval_parametric_fn] in exact arithmetic.
    Cf. para_curve.rs:93-446. *)
Definition eval_real (type : Z) (params : list R) (r : R) : option ext :=
  eval_parametric ext_ops type (map Fin params) (Fin r).
(** ... and applied to an earlier result.
    Cf. para_curve.rs:93-446. *)
Definition eval_ext (type : Z) (params : list R) (r : ext) : option ext :=
  eval_parametric ext_ops type (map Fin params) r.
