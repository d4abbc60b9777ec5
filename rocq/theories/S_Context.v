(** Specification: which plug-ins are acceptable, and what happens to a context. *)
From Coq Require Import String.
From Verif Require Import M_Base M_FileFile M_Signature M_Context M_Header M_Profile S_Bytes S_Profile.
Local Open Scope list_scope.
Local Open Scope Z_scope.

(** The plug-ins of a chain, first to last; all but the last. *)
Fixpoint chain (p : Plugin) : list Plugin :=
  match p with mkPlugin _ _ _ _ next => p :: match next with None => [] | Some q => chain q end end.
Definition validated (p : Plugin) : list Plugin := removelast (chain p).

Definition magic_of (p : Plugin) : Signature := let 'mkPlugin m _ _ _ _ := p in m.
Definition version_of (p : Plugin) : Z := let 'mkPlugin _ v _ _ _ := p in v.
Definition type_of (p : Plugin) : Signature := let 'mkPlugin _ _ t _ _ := p in t.

Definition code (s : string) : Signature := big_value (text s).
Definition known_types : list Signature :=
  map code ["inpH"; "typH"; "tagH"; "frmH"; "intH"; "parH"; "mpeH"; "optH"; "xfmH"]%string.

Definition acceptable (p : Plugin) : Prop :=
  magic_of p = code "acpp" /\ version_of p <= 2131 /\ In (type_of p) known_types.

(** [{:?}] of a signature: the quoting is std's. *)
Definition quoted (w : world) (s : Signature) : list Z :=
  text "Signature { value: " ++ w_str_debug w (sig_debug_value s) ++ text " }".

(** What is wrong with a plug-in: the first failing check. *)
Inductive complaint (w : world) (p : Plugin) : list Z -> Prop :=
| CMagic : magic_of p <> code "acpp" -> complaint w p (text "Unrecognized plugin")
| CVersion : magic_of p = code "acpp" -> 2131 < version_of p ->
    complaint w p (text "plugin needs Little CMS " ++ decimal (version_of p) ++ text ", current version is 2131")
| CType : magic_of p = code "acpp" -> version_of p <= 2131 -> ~ In (type_of p) known_types ->
    complaint w p (text "Unrecognized plugin type '" ++ quoted w (type_of p) ++ text "'").

(** What a program can do to a context through the public interface. *)
Inductive public_op :=
| OpSignal (code : ErrorCode) (t : list Z)
| OpPlugin (p : Plugin)
| OpOpen (now : NaiveDateTime) (sched : list os_event) (fs : FileSystem) (q : path) (mode : AccessMode).
Definition apply_op (e : env) (w : world) (c : Context) (o : public_op) : Context :=
  match o with
  | OpSignal code t => fst (signal_error w c code t)
  | OpPlugin p => snd (fst (init_plugin w c p))
  | OpOpen now sched fs q mode => or_ctx (open_from_file_thr e w now sched c fs q mode)
  end.
