(** Model of /repo/src/plugins/para_curve.rs, generic in the floating-point operations. *)
From Verif Require Import M_Base M_F64.

(** The literals of the file: 0.0, 0.5, 1.0, 2.0, 10.0, [MATRIX_DET_TOLERANCE] = 0.0001
    (/repo/src/lib.rs:52) and [PLUS_INF] = 1e22 (para_curve.rs:8). *)
Inductive flit := L0 | Lhalf | L1 | L2 | L10 | Ltol | Lplus_inf.

(** The operations of [f64] the file uses.
    Cf. para_curve.rs:93-467. *)
Record FOps (F : Type) := mkF {
  f_lit : flit -> F;
  f_neg : F -> F;
  f_abs : F -> F;
  f_add : F -> F -> F;
  f_sub : F -> F -> F;
  f_mul : F -> F -> F;
  f_div : F -> F -> F;
  f_lt : F -> F -> bool;
  f_ge : F -> F -> bool;
  f_max : F -> F -> F;
  f_pow : F -> F -> F;
  f_log10 : F -> F;
  f_exp : F -> F
}.
Arguments mkF {F}.
Arguments f_lit {F}.
Arguments f_neg {F}.
Arguments f_abs {F}.
Arguments f_add {F}.
Arguments f_sub {F}.
Arguments f_mul {F}.
Arguments f_div {F}.
Arguments f_lt {F}.
Arguments f_ge {F}.
Arguments f_max {F}.
Arguments f_pow {F}.
Arguments f_log10 {F}.
Arguments f_exp {F}.

Section Curves.
  Context {F : Type} (O : FOps F).
  Local Notation "0.0" := (f_lit O L0).
  Local Notation "0.5" := (f_lit O Lhalf).
  Local Notation "1.0" := (f_lit O L1).
  Local Notation "2.0" := (f_lit O L2).
  Local Notation "10.0" := (f_lit O L10).
  Local Notation TOL := (f_lit O Ltol).
  Local Notation "x + y" := (f_add O x y).
  Local Notation "x - y" := (f_sub O x y).
  Local Notation "x * y" := (f_mul O x y).
  Local Notation "x / y" := (f_div O x y).
  Local Notation "x < y" := (f_lt O x y).
  Local Notation "y > x" := (f_lt O x y) (only parsing).
  Local Notation "x >= y" := (f_ge O x y).
  Local Notation "x ^ y" := (f_pow O x y).
  Local Notation neg := (f_neg O).
  Local Notation abs := (f_abs O).

  (** para_curve.rs:448-451 *)
  Definition sigmoid_base (k t : F) : F := (1.0 / (1.0 + f_exp O (neg k * t))) - 0.5.
  (** para_curve.rs:452-455 *)
  Definition inverted_sigmoid_base (k t : F) : F :=
    neg (f_log10 O ((1.0 / (t + 0.5)) - 1.0)) / k.
  (** para_curve.rs:456-461 *)
  Definition sigmoid_factory (k t : F) : F :=
    let correction := 0.5 / sigmoid_base k 1.0 in
    correction * sigmoid_base k (2.0 * t - 1.0) + 0.5.
  (** para_curve.rs:462-467 *)
  Definition inverted_sigmoid_factory (k t : F) : F :=
    let correction := 0.5 / sigmoid_base k 1.0 in
    (inverted_sigmoid_base k ((t - 0.5) / correction) + 1.0) / 2.0.

  (** [params[i]]: [None] = index panic. *)
  Local Notation "'let*' x := ps [ i ] 'in' k" :=
    (match nth_error ps i with Some x => k | None => None end)
      (at level 200, x name, ps at level 9, i at level 9).

  (** para_curve.rs:93-446 [default_eval_parametric_fn]; [None] = panic.  Each arm reads its
      parameters first, in index order, as the source does. *)
  Definition eval_parametric (type : Z) (params : list F) (r : F) : option F :=
    let ps := params in
    match type with
    (* lines 96-108 *)
    | 1 =>
        let* gamma := ps [0%nat] in
        Some (if r < 0.0 then (if (abs gamma - 1.0) < TOL then r else 0.0) else r ^ gamma)
    (* lines 110-126 *)
    | -1 =>
        let* gamma := ps [0%nat] in
        Some (if r < 0.0 then (if abs (gamma - 1.0) < TOL then r else 0.0)
              else if abs gamma < TOL then f_lit O Lplus_inf else r ^ (1.0 / gamma))
    (* lines 130-151 *)
    | 2 =>
        let* gamma := ps [0%nat] in let* a := ps [1%nat] in let* b := ps [2%nat] in
        Some (if abs a < TOL then 0.0
              else let disc := neg b / a in
                   if r >= disc
                   then let e := a * r + b in if e > 0.0 then e ^ gamma else 0.0
                   else 0.0)
    (* lines 154-173 *)
    | -2 =>
        let* gamma := ps [0%nat] in let* a := ps [1%nat] in let* b := ps [2%nat] in
        Some (if (abs gamma < TOL) || (abs a < TOL) then 0.0
              else let val := if r < 0.0 then 0.0 else (r ^ (1.0 / gamma) - b) / a in
                   if val < 0.0 then 0.0 else val)
    (* lines 177-200 *)
    | 3 =>
        let* gamma := ps [0%nat] in let* a := ps [1%nat] in let* b := ps [2%nat] in
        let* c := ps [3%nat] in
        Some (if abs a < TOL then 0.0
              else let disc := f_max O (neg b / a) 0.0 in
                   if r >= disc
                   then let e := a * r + b in if e > 0.0 then e ^ gamma + c else 0.0
                   else c)
    (* lines 204-225 *)
    | -3 =>
        let* gamma := ps [0%nat] in let* a := ps [1%nat] in let* b := ps [2%nat] in
        let* c := ps [3%nat] in
        Some (if abs a < TOL then 0.0
              else if r >= c
                   then let e := r - c in
                        if e > 0.0 then (e ^ (1.0 / gamma) - b) / a else 0.0
                   else neg b / a)
    (* lines 229-247 *)
    | 4 =>
        let* gamma := ps [0%nat] in let* a := ps [1%nat] in let* b := ps [2%nat] in
        let* c := ps [3%nat] in let* d := ps [4%nat] in
        Some (if r >= d
              then let e := a * r + b in if e > 0.0 then e ^ gamma else 0.0
              else r * c)
    (* lines 251-274 *)
    | -4 =>
        let* gamma := ps [0%nat] in let* a := ps [1%nat] in let* b := ps [2%nat] in
        let* c := ps [3%nat] in let* d := ps [4%nat] in
        let e := a * d + b in
        let disc := if e < 0.0 then 0.0 else e ^ gamma in
        Some (if r >= disc
              then if (abs gamma < TOL) || (abs a < TOL) then 0.0
                   else (r ^ (1.0 / gamma) - b) / a
              else if abs c < TOL then 0.0 else r / c)
    (* lines 277-297 *)
    | 5 =>
        let* gamma := ps [0%nat] in let* a := ps [1%nat] in let* b := ps [2%nat] in
        let* c := ps [3%nat] in let* d := ps [4%nat] in let* e := ps [5%nat] in
        let* f := ps [6%nat] in
        Some (if r >= d
              then let _e := a * r + b in if _e > 0.0 then _e ^ gamma + e else e
              else r * c + f)
    (* lines 301-329 *)
    | -5 =>
        let* gamma := ps [0%nat] in let* a := ps [1%nat] in let* b := ps [2%nat] in
        let* c := ps [3%nat] in let* d := ps [4%nat] in let* e := ps [5%nat] in
        let* f := ps [6%nat] in
        let disc := c * d + f in
        Some (if r >= disc
              then let e := r - e in
                   if e < 0.0 then 0.0
                   else if (abs gamma < TOL) || (abs a < TOL) then 0.0
                        else (e ^ (1.0 / gamma) - b) / a
              else if abs c < TOL then 0.0 else (r - f) / c)
    (* lines 331-344 *)
    | 6 =>
        let* gamma := ps [0%nat] in let* a := ps [1%nat] in let* b := ps [2%nat] in
        let* c := ps [3%nat] in
        let e := a * r + b in
        Some (if e < 0.0 then c else e ^ gamma + c)
    (* lines 346-363 *)
    | -6 =>
        let* gamma := ps [0%nat] in let* a := ps [1%nat] in let* b := ps [2%nat] in
        let* c := ps [3%nat] in
        Some (if abs a < TOL then 0.0
              else let e := r - c in
                   if e < 0.0 then 0.0 else (e ^ (1.0 / gamma) - b) / a)
    (* lines 365-378; [e <= 0.0] is [0.0 >= e] *)
    | 7 =>
        let* gamma := ps [0%nat] in let* a := ps [1%nat] in let* b := ps [2%nat] in
        let* c := ps [3%nat] in let* d := ps [4%nat] in
        let e := b * r ^ gamma + c in
        Some (if 0.0 >= e then d else a * f_log10 O e + d)
    (* lines 382-395 *)
    | -7 =>
        let* gamma := ps [0%nat] in let* a := ps [1%nat] in let* b := ps [2%nat] in
        let* c := ps [3%nat] in let* d := ps [4%nat] in
        Some (if (gamma < TOL) || (a < TOL) || (b < TOL) then 0.0
              else ((10.0 ^ ((r - d) / a) - c) / b) ^ (1.0 / gamma))
    (* lines 397-405 *)
    | 8 =>
        let* a := ps [0%nat] in let* b := ps [1%nat] in let* c := ps [2%nat] in
        let* d := ps [3%nat] in let* e := ps [4%nat] in
        Some (a * b ^ (c * r + d) + e)
    (* lines 407-425 *)
    | -8 =>
        let* a := ps [0%nat] in let* b := ps [1%nat] in let* c := ps [2%nat] in
        let* d := ps [3%nat] in let* e := ps [4%nat] in
        let disc := r - e in
        Some (if disc < 0.0 then 0.0
              else if (abs a < TOL) || (abs c < TOL) then 0.0
                   else (f_log10 O (disc / a) / f_log10 O b - d) / c)
    (* lines 427-434 *)
    | 108 =>
        let* g := ps [0%nat] in
        Some (if abs g < TOL then 0.0 else (1.0 - (1.0 - r) ^ (1.0 / g)) ^ (1.0 / g))
    (* lines 436-440 *)
    | -108 =>
        let* g := ps [0%nat] in
        Some (1.0 - (1.0 - r ^ g) ^ g)
    (* lines 442-444 *)
    | 109 => let* k := ps [0%nat] in Some (sigmoid_factory k r)
    | -109 => let* k := ps [0%nat] in Some (inverted_sigmoid_factory k r)
    | _ => Some 0.0
    end.
End Curves.

(** para_curve.rs:27-30 [Curve] and 31-80 the default table: (function_curve_id, parameter_count). *)
Record Curve := mkCurve { function_curve_id : Z; parameter_count : nat }.
(** para_curve.rs:31-80. *)
Definition default_curves : list Curve :=
  [mkCurve 1 1; mkCurve 2 3; mkCurve 3 4; mkCurve 4 5; mkCurve 5 7; mkCurve 6 4; mkCurve 7 5;
   mkCurve 8 5; mkCurve 108 1; mkCurve 109 1].

(** para_curve.rs:82-91 [is_in_set]; outer [None] = panic of [i32::abs]. *)
Fixpoint is_in_set_from (e : env) (curves : list Curve) (i : nat) (type : Z) : option (option nat) :=
  match curves with
  | [] => Some None
  | c :: rest =>
      match i32_abs e type with
      | None => None
      | Some a => if a =? function_curve_id c then Some (Some i)
                  else is_in_set_from e rest (S i) type
      end
  end.
(** para_curve.rs:82-91. *)
Definition is_in_set (e : env) (curves : list Curve) (type : Z) : option (option nat) :=
  is_in_set_from e curves 0 type.
