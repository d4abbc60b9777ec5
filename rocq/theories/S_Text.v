(** Specification: four-character codes and UTF-8. *)
From Verif Require Import S_Bytes M_Base.

(** The text padded with spaces to four bytes and cut to four. *)
Definition four (l : list Z) : list Z := firstn 4 (l ++ [32; 32; 32; 32]).

(** Unicode scalar values and their UTF-8 encoding (RFC 3629, section 3). *)
Definition is_scalar (c : Z) : Prop := 0 <= c <= 1114111 (* 0x10FFFF *) /\ ~ (55296 <= c <= 57343) (* surrogates *).
Definition utf8_char (c : Z) : list Z :=
  if c <? 128 then [c]
  else if c <? 2048 then [192 + c / 64; 128 + c mod 64]
  else if c <? 65536 then [224 + c / 4096; 128 + c / 64 mod 64; 128 + c mod 64]
  else [240 + c / 262144; 128 + c / 4096 mod 64; 128 + c / 64 mod 64; 128 + c mod 64].
Definition is_text (l : list Z) : Prop := exists cs, Forall is_scalar cs /\ l = flat_map utf8_char cs.
