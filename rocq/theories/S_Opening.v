(** Specification: opening a profile as a conversation with its source - every call, every decision, every result (C112). *)
From Coq Require Import String.
From Verif Require Import M_Base M_IO M_Header M_Context M_Profile S_Bytes S_Header S_Profile S_Talk.
Local Open Scope list_scope.
Local Open Scope Z_scope.

Section Opening.
  Context {S : Type} (little checks : bool) (w : world) (c : Context).
  (** The results. *)
  Definition quits (r : res unit) : talk (outcome S) := Ends (fun x => exists o, x = Ok o /\ o_res o = r /\ o_events o = [] /\ o_ctx o = c).
  Definition complains (code : ErrorCode) (t : list Z) : talk (outcome S) :=
    Ends (fun x => exists o, x = Ok o /\ o_res o = Err InvalidData /\ o_events o = [(code, t)] /\ o_ctx o = call_handlers w c [(code, t)]).
  (** The bytes [d] were delivered; the source said it has [len] bytes. *)
  Definition opens (d : list Z) (len : Z) : talk (outcome S) :=
    Ends (fun x => exists o s, x = Ok o /\ o_res o = Ok tt /\ o_events o = [] /\ o_ctx o = c /\ o_profile o = spec_profile little d len (Some s)).
  (** Whatever does not succeed ends it. *)
  Definition next {B} (k : B -> talk (outcome S)) (a : res B) : talk (outcome S) :=
    match a with Ok b => k b | Err e => quits (Err e) | Panic => quits Panic end.

  (** [n] entries are still to be read. *)
  Fixpoint directory (n : nat) (d : list Z) (len : Z) : talk (outcome S) :=
    match n with
    | O => opens d len
    | Datatypes.S n => Reads 12 (next (fun t =>
        if checks && (4294967296 <=? word little t 4 4 + word little t 8 4) then quits Panic else directory n (d ++ t) len))
    end.
  (** The length of the source: to the end and back; the way back is taken even if the source cannot say where the end is. *)
  Definition length_then (k : Z -> talk (outcome S)) : talk (outcome S) :=
    Tells (next (fun pos => Seeks (SeekEnd 0) (next (fun _ => Tells (fun len =>
      match len with Panic => quits Panic | _ => Seeks (SeekStart pos) (next (fun _ => next k len)) end))))).
  Definition opening : talk (outcome S) :=
    Reads 128 (next (fun hd =>
      Either (h_magic (decode_header little hd) = 1633907568 (* "acsp" *))
        (length_then (fun len =>
          Either (real_dt (h_date (decode_header little hd)))
            (Reads 4 (next (fun n =>
              if 100 <? wire_value little n then complains EC_Range (text "Too many tags " ++ decimal (wire_value little n))
              else directory (Z.to_nat (wire_value little n)) (hd ++ n) len)))
            (quits Panic)))
        (complains EC_BadSignature (text "not an ICC profile, invalid signature")))).
End Opening.

(** The calls that a conversation can make: at most [n], none of them a write. *)
Fixpoint calls_only_reads {A} (n : nat) (t : talk A) : Prop :=
  match t with
  | Ends _ => True
  | Either _ a b => calls_only_reads n a /\ calls_only_reads n b
  | Writes _ _ => False
  | Reads _ k => match n with O => False | Datatypes.S n => forall a, calls_only_reads n (k a) end
  | Seeks _ k => match n with O => False | Datatypes.S n => forall a, calls_only_reads n (k a) end
  | Tells k => match n with O => False | Datatypes.S n => forall a, calls_only_reads n (k a) end
  end.

(** What Rust's types promise of a source, in all states with [I]: buffers keep their length and hold bytes, positions are [usize]. *)
Definition honest {S} (e : env) (h : IOHandler S) (I : S -> Prop) : Prop :=
  sane h I /\ (forall s p r s', I s -> io_seek h s p = (r, s') -> I s') /\
  (forall s r s', I s -> io_tell h s = (r, s') -> I s' /\ forall n, r = Ok n -> 0 <= n < usize_lim e).
