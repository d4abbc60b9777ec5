(** Specification: what an error text is about (C116). *)
From Coq Require Import String.
From Verif Require Import M_Base M_Signature M_Context M_Debug M_Header M_Profile S_Text S_Header S_Context S_Profile.
Local Open Scope list_scope.
Local Open Scope Z_scope.

(** What can be wrong with a plug-in or a profile file. *)
Inductive fault :=
| NotAPlugin
| NeedsVersion (v : Z)
| UnknownType (s : Signature)
| NotAProfile
| TooManyTags (n : Z).

(** The plug-in [p] has the fault [f]; earlier checks found nothing. *)
Definition plugin_fault (p : Plugin) (f : fault) : Prop :=
  match f with
  | NotAPlugin => magic_of p <> code "acpp"
  | NeedsVersion v => magic_of p = code "acpp" /\ version_of p = v /\ 2131 < v
  | UnknownType s => magic_of p = code "acpp" /\ version_of p <= 2131 /\ type_of p = s /\ ~ In s known_types
  | _ => False
  end.
(** The same for the content [d] of a file. *)
Definition file_fault (le : bool) (d : list Z) (f : fault) : Prop :=
  match f with
  | NotAProfile => h_magic (decode_header le d) <> 1633907568
  | TooManyTags n => h_magic (decode_header le d) = 1633907568 /\ declared le d = n /\ 100 < n
  | _ => False
  end.
(** Strings are quoted as std quotes them. *)
Definition std_quotes (u : unicode) (w : world) : Prop := forall l, is_text l -> w_str_debug w l = str_debug u l.
