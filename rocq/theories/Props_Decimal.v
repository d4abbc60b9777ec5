(** C87.  Numbers in the messages handed to the error handler. *)
From Coq Require Import String.
From Verif Require Import M_Base M_Context M_Profile S_Decimal P_Decimal.

(** The way to write a number is unique ... *)
Theorem C87_writing_unique : forall n l l', written n l -> written n l' -> l = l'.
Proof. exact written_unique. Qed.
Print Assumptions C87_writing_unique.

(** ... and it is what the messages contain. *)
Theorem C87_messages :
  (forall n, 0 <= n -> exists l, written n l /\ msg_too_many n = text "Too many tags " ++ l) /\
  (forall v, 0 <= v -> exists l, written v l /\ msg_version v = text "plugin needs Little CMS " ++ l ++ text ", current version is 2131").
Proof. exact messages_written. Qed.
Print Assumptions C87_messages.

Example wrote : written 4290 (text "4290") /\ ~ written 4290 (text "04290") /\ written 0 (text "0").
Proof. exact wrote_4290. Qed.
