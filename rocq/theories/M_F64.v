(** IEEE-754 numbers used by the I/O layer, from Flocq. *)
From Flocq Require Import Core.Zaux IEEE754.BinarySingleNaN IEEE754.Bits.
From Verif Require Import M_Base.
Open Scope Z_scope.

(** Rust [f64]: binary64 with a single (payload-less) NaN; no modelled function lets an f64 NaN
    payload be observed.
    Cf. /repo/src/io/io_handler.rs:488-503, /repo/src/plugins/para_curve.rs:93-467. *)
Definition f64 : Type := binary_float 53 1024.

Lemma prec53 : FLX.Prec_gt_0 53. Proof. reflexivity. Qed.
Lemma emax53 : Prec_lt_emax 53 1024. Proof. reflexivity. Qed.
#[global] Existing Instances prec53 emax53.

(** The f64 nearest to [m * 2^e] (exact for every literal used below): f64 literals and
    integer-to-f64 [as] casts.
    Cf. /repo/src/io/io_handler.rs:489,495,502. *)
Definition f64_lit (m e : Z) : f64 := binary_normalize 53 1024 prec53 emax53 mode_NE m e false.
(** /repo/src/io/io_handler.rs:495-496 ([as f64]). *)
Definition f64_of_int (z : Z) : f64 := f64_lit z 0.

(** /repo/src/io/io_handler.rs:498,502 ([*]). *)
Definition f64_mul (x y : f64) : f64 := Bmult mode_NE x y.
(** /repo/src/io/io_handler.rs:496,502 ([+]). *)
Definition f64_add (x y : f64) : f64 := Bplus mode_NE x y.
(** /repo/src/io/io_handler.rs:495 ([/]). *)
Definition f64_div (x y : f64) : f64 := Bdiv mode_NE x y.

(** [f64::floor].
    Cf. /repo/src/io/io_handler.rs:502. *)
Definition f64_floor (x : f64) : f64 := Bnearbyint mode_DN x.

(** [x as i32]: truncation towards zero, saturating, NaN to 0 (Rust reference, "Numeric cast").
    Cf. [i32::MAX], the upper end of the cast at /repo/src/io/io_handler.rs:502. *)
Definition i32_max : Z := 2 ^ 31 - 1.
(** [i32::MIN], the lower end of the cast at io_handler.rs:502. *)
Definition i32_min : Z := - 2 ^ 31.
(** Saturation of the cast at io_handler.rs:502. *)
Definition clamp_i32 (z : Z) : Z := Z.max i32_min (Z.min i32_max z).
(** /repo/src/io/io_handler.rs:502. *)
Definition f64_as_i32 (x : f64) : Z :=
  match x with
  | B754_nan => 0
  | B754_infinity s => if s then i32_min else i32_max
  | _ => clamp_i32 (Btrunc x)
  end.

(** /repo/src/io/io_handler.rs:488-499 [s15f16_to_f64]; [None] is the panic of [i32::abs] on
    [i32::MIN] under overflow checks.  [value >> 16] on i32 is an arithmetic shift; [as u16]
    truncates modulo 2^16. *)
Definition s15f16_to_f64 (e : env) (value : Z) : option f64 :=
  let sign := if value <? 0 then f64_lit (-1) 0 else f64_lit 1 0 in
  match i32_abs e value with
  | None => None
  | Some value =>
      let whole := (Z.land (Z.shiftr value 16) 65535) mod 2 ^ 16 in
      let frac_part := (Z.land value 65535) mod 2 ^ 16 in
      let mid := f64_div (f64_of_int frac_part) (f64_lit 65536 0) in
      let floater := f64_add (f64_of_int whole) mid in
      Some (f64_mul sign floater)
  end.

(** /repo/src/io/io_handler.rs:501-503 [f64_to_s15f16]. *)
Definition f64_to_s15f16 (value : f64) : Z :=
  f64_as_i32 (f64_floor (f64_add (f64_mul value (f64_lit 65536 0)) (f64_lit 1 (-1)))).

(** Rust [f32] with NaN payloads; [transmute] to and from [u32]
    (/repo/src/io/io_handler.rs:264,423). *)
Definition f32 : Type := binary32.
(** /repo/src/io/io_handler.rs:264. *)
Definition f32_of_bits (b : Z) : f32 := b32_of_bits b.
(** /repo/src/io/io_handler.rs:423. *)
Definition bits_of_f32 (x : f32) : Z := bits_of_b32 x.
