(** Specification: what may be expected of a debugging text. *)
From Coq Require Import String Ascii.
From Verif Require Import M_Base M_Context.
Local Open Scope Z_scope.

(** One lower-case hexadecimal digit, by position in the alphabet. *)
Definition digit (d : Z) : Z := nth (Z.to_nat d) (text "0123456789abcdef") 0.
(** A byte in two columns, no leading zero. *)
Definition two_columns (b : Z) : list Z := [if b <? 16 then 32 else digit (b / 16); digit (b mod 16)].
(** Bytes listed in four columns each. *)
Definition listing (l : list Z) : list Z := concat (map (fun b => [32] ++ two_columns b ++ [32]) l).

(** The double-quote character. *)
Definition dq : list Z := [34].
(** Printable ASCII that needs no escape in a string literal. *)
Definition plain (c : Z) : Prop := 32 <= c <= 126 /\ c <> 34 /\ c <> 92.

Definition line_breaks (l : list Z) : nat := count_occ Z.eq_dec l 10.
