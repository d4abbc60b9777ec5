(** C01, C02: byte-order helpers. *)
From Verif Require Import M_Base M_Endian S_Bytes P_Bytes P_Endian.

(** C01.  Widths of the code are n = 2, 4, 8; the statement holds for every width. *)
Theorem C01_int_helpers_are_involutions :
  forall (e : env) (n : nat) (v : Z), is_uint n v ->
    be_adjust_int e n (be_adjust_int e n v) = v /\
    le_adjust_int e n (le_adjust_int e n v) = v /\
    adjust_int e n (adjust_int e n v) = v.
Proof. exact (fun e n v H => conj (be_adjust_int_inv e n v H) (conj (le_adjust_int_inv e n v H) (adjust_int_inv e n v H))). Qed.
Print Assumptions C01_int_helpers_are_involutions.

Theorem C01_array_helpers_are_involutions :
  forall (e : env) (l : list Z), are_bytes l ->
    be_adjust_array e (length l) (be_adjust_array e (length l) l) = l /\
    le_adjust_array e (length l) (le_adjust_array e (length l) l) = l /\
    adjust_array e (length l) (adjust_array e (length l) l) = l.
Proof. exact (fun e l H => conj (be_adjust_array_inv e l H) (conj (le_adjust_array_inv e l H) (adjust_array_inv e l H))). Qed.
Print Assumptions C01_array_helpers_are_involutions.

(** C02. *)
Theorem C02_int_helpers_give_wire_order :
  forall (e : env) (n : nat) (v : Z),
    ne_bytes e n (be_adjust_int e n v) = big_enc n v /\
    ne_bytes e n (le_adjust_int e n v) = little_enc n v /\
    ne_bytes e n (adjust_int e n v) = wire_enc (feat_le e) n v.
Proof. exact (fun e n v => conj (ne_be_adjust e n v) (conj (ne_le_adjust e n v) (ne_adjust e n v))). Qed.
Print Assumptions C02_int_helpers_give_wire_order.

Theorem C02_array_helpers_give_wire_value :
  forall (e : env) (l : list Z), are_bytes l ->
    ne_val e (be_adjust_array e (length l) l) = big_value l /\
    ne_val e (le_adjust_array e (length l) l) = little_value l /\
    ne_val e (adjust_array e (length l) l) = wire_value (feat_le e) l.
Proof. exact (fun e l H => conj (be_adjust_array_val e l H) (conj (le_adjust_array_val e l H) (adjust_array_val e l H))). Qed.
Print Assumptions C02_array_helpers_give_wire_value.

Theorem C02_int_and_array_helpers_agree :
  forall (e : env) (n : nat) (v : Z), is_uint n v ->
    ne_bytes e n (be_adjust_int e n v) = be_adjust_array e n (ne_bytes e n v) /\
    ne_bytes e n (le_adjust_int e n v) = le_adjust_array e n (ne_bytes e n v) /\
    ne_bytes e n (adjust_int e n v) = adjust_array e n (ne_bytes e n v).
Proof. exact (fun e n v H => conj (be_int_array_agree e n v H) (conj (le_int_array_agree e n v H) (int_array_agree e n v H))). Qed.
Print Assumptions C02_int_and_array_helpers_agree.

(** The specification itself is an encoding: decoding gives the value back, the bytes are bytes. *)
Theorem C02_wire_spec_is_a_bijection :
  forall (b : bool) (n : nat),
    (forall v, is_uint n v -> wire_value b (wire_enc b n v) = v) /\
    (forall l, are_bytes l -> length l = n -> wire_enc b n (wire_value b l) = l).
Proof.
  exact (fun b n => conj (fun v H => wire_value_enc b n v H)
           (fun l H E => eq_ind _ (fun k => wire_enc b k (wire_value b l) = l) (wire_enc_value b l H) _ E)).
Qed.
Print Assumptions C02_wire_spec_is_a_bijection.

(** Concrete cases: a little-endian and a big-endian 64-bit host. *)
Definition pc : env := mkEnv false false true true false false.
Definition s390 : env := mkEnv true false true true false false.

Example ex_adjust_u32_pc : adjust_int pc 4 305419896 (* 0x12345678 *) = 2018915346 (* 0x78563412 *).
Proof. reflexivity. Qed.
Example ex_adjust_u32_s390 : adjust_int s390 4 305419896 = 305419896.
Proof. reflexivity. Qed.
Example ex_wire : ne_bytes pc 4 (adjust_int pc 4 305419896) = [18; 52; 86; 120]
               /\ ne_bytes s390 4 (adjust_int s390 4 305419896) = [18; 52; 86; 120].
Proof. split; reflexivity. Qed.
Example ex_array_pc : be_adjust_array pc 8 [1; 2; 3; 4; 5; 6; 7; 255] = [255; 7; 6; 5; 4; 3; 2; 1].
Proof. reflexivity. Qed.
Example ex_hyp : is_uint 8 18446744073709551615 /\ are_bytes [0; 255].
Proof. split; [unfold is_uint; lia | repeat constructor; unfold is_byte; lia]. Qed.
