(** Specification: conditions on files that the statements about them mention. *)
From Verif Require Import S_Bytes S_File M_Base M_IO M_FileFile M_FileNull.

(** A schedule of the operating system without hard errors. *)
Definition no_fail (l : list os_event) : Prop := Forall (fun ev => ev <> EvFail) l.

(** The fields of a null file are machine words. *)
Definition null_wf (e : env) (s : FileNull) : Prop :=
  0 <= pointer s < usize_lim e /\ 0 <= used_space s < usize_lim e.

(** Any call but a write of no bytes where such a write can lengthen a file in memory. *)
Definition plain_write (e : env) (c : call) : Prop :=
  match c with CWrite bs => bs <> [] \/ pads_empty e = false | _ => True end.

(** Calls for which a dry run is meaningful. *)
Definition dry_ok (e : env) (c : call) : Prop :=
  match c with
  | CWrite bs => bs <> [] \/ pads_empty e = true
  | CSeek (SeekEnd n) | CSeek (SeekCurrent n) => ovf e = false \/ 0 <= n
  | _ => True
  end.

(** The answer of a file whose bytes are all zero. *)
Definition blank (x : res answer) : res answer :=
  match x with Ok (ABytes bs) => Ok (ABytes (repeat 0 (length bs))) | _ => x end.
