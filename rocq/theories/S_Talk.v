(** Specification: what a typed transfer asks of its handler, step by step, and what it makes of the answers (C107). *)
From Coq Require Import ZArith Reals List.
From Flocq Require Import Core IEEE754.BinarySingleNaN.
From Verif Require Import M_Base M_F64 M_IO S_Bytes.
Import ListNotations.
Local Open Scope Z_scope.

(** A conversation.  [Ends P]: no more calls, the result satisfies [P].  Reading is into [n] zero bytes.
    [Either P]: how it goes on depends on [P]. *)
Inductive talk (A : Type) :=
| Ends (P : res A -> Prop)
| Reads (n : nat) (k : res (list Z) -> talk A)
| Writes (b : list Z) (k : res unit -> talk A)
| Seeks (p : seek_from) (k : res unit -> talk A)
| Tells (k : res Z -> talk A)
| Either (P : Prop) (yes no : talk A).
Arguments Ends {A}. Arguments Reads {A}. Arguments Writes {A}. Arguments Seeks {A}. Arguments Tells {A}. Arguments Either {A}.

(** From state [s], following the conversation leads to result [r] and state [s']. *)
Fixpoint follows {S A} (h : IOHandler S) (t : talk A) (s : S) (r : res A) (s' : S) : Prop :=
  match t with
  | Ends P => s' = s /\ P r
  | Reads n k =>
      match io_read h s (repeat 0 n) with
      | (Ok _, s1, b) => follows h (k (Ok b)) s1 r s'
      | (Err e, s1, _) => follows h (k (Err e)) s1 r s'
      | (Panic, s1, _) => follows h (k Panic) s1 r s'
      end
  | Writes b k => let '(a, s1) := io_write h s b in follows h (k a) s1 r s'
  | Seeks p k => let '(a, s1) := io_seek h s p in follows h (k a) s1 r s'
  | Tells k => let '(a, s1) := io_tell h s in follows h (k a) s1 r s'
  | Either P yes no => (P /\ follows h yes s r s') \/ (~ P /\ follows h no s r s')
  end.

(** Go on after success; anything else is the result. *)
Definition go {A B} (k : B -> talk A) (a : res B) : talk A :=
  match a with Ok b => k b | Err e => Ends (eq (Err e)) | Panic => Ends (eq Panic) end.
Definition gives {A} (r : res A) : talk A := Ends (eq r).

(** A buffer keeps its length and holds bytes, as the type system of Rust sees to, in all states with [I]. *)
Definition sane {S} (h : IOHandler S) (I : S -> Prop) : Prop :=
  forall s n r s' b, I s -> io_read h s (repeat 0 n) = (r, s', b) -> length b = n /\ are_bytes b /\ I s'.

Definition uint_in (little : bool) (n : nat) : talk Z := Reads n (go (fun b => gives (Ok (wire_value little b)))).
Definition float_in (little : bool) : talk f32 := Reads 4 (go (fun b => gives (Ok (f32_of_bits (wire_value little b))))).
(** Fixed-point numbers: the 32-bit two's complement number, divided by 65536. *)
Definition signed (w : Z) : Z := if w <? 2 ^ 31 then w else w - 2 ^ 32.
Definition fixed (x : f64) (w : Z) : Prop := is_finite x = true /\ B2R x = (IZR (signed w) / 65536)%R.
(** Reading one: with overflow checks the smallest number panics. *)
Definition fixed_in (little checks : bool) {A} (k : Z -> talk A) : talk A :=
  Reads 4 (go (fun b => if checks && (wire_value little b =? 2 ^ 31) then gives Panic else k (wire_value little b))).
Definition number_in (little checks : bool) : talk f64 := fixed_in little checks (fun w => Ends (fun r => exists x, r = Ok x /\ fixed x w)).
Definition xyz_in (little checks : bool) : talk CIEXYZ :=
  fixed_in little checks (fun x => fixed_in little checks (fun y => fixed_in little checks (fun z =>
    Ends (fun r => exists v, r = Ok v /\ fixed (xyz_X v) x /\ fixed (xyz_Y v) y /\ fixed (xyz_Z v) z)))).

Definition uint_out (little : bool) (n : nat) (v : Z) : talk unit := Writes (wire_enc little n v) (go (fun _ => gives (Ok tt))).
(** The word for a number: rounded half up, clipped; NaN gives 0.  One number, just below 2^-17, is rounded up though it
    should not be (C15). *)
Definition clip (n : Z) : Z := Z.max (- 2 ^ 31) (Z.min n (2 ^ 31 - 1)).
Definition odd_one : R := ((/ 2 - bpow radix2 (-54)) / 65536)%R.
Definition word_for (x : f64) (w : Z) : Prop :=
  match x with
  | B754_nan => w = 0
  | B754_infinity s => w = if s then - 2 ^ 31 else 2 ^ 31 - 1
  | _ => (B2R x = odd_one -> w = 1) /\ (B2R x <> odd_one -> w = clip (Zfloor (65536 * B2R x + / 2)))
  end.
Definition xyz_out (little : bool) (x y z : Z) : talk unit :=
  Writes (wire_enc little 4 (x mod 2 ^ 32)) (go (fun _ => Writes (wire_enc little 4 (y mod 2 ^ 32)) (go (fun _ => uint_out little 4 (z mod 2 ^ 32))))).

(** In all states with [I], a method does what a conversation says. *)
Definition always {S} (s : S) : Prop := True.
Definition does {S A} (h : IOHandler S) (I : S -> Prop) (t : talk A) (m : S -> res A * S) : Prop := forall s, I s -> follows h t s (fst (m s)) (snd (m s)).

(** The length: the way back is taken even if the second question fails, and a failure on the way back is what counts. *)
Definition size_of : talk Z :=
  Tells (go (fun p => Seeks (SeekEnd 0) (go (fun _ =>
  Tells (fun a => match a with Panic => gives Panic | _ => Seeks (SeekStart p) (go (fun _ => gives a)) end))))).
