(** Specification: the conversation between opening a profile and the source it is read from. *)
From Coq Require Import String.
From Verif Require Import S_Bytes S_Header M_Base M_IO M_Header M_Context M_Profile S_Profile.
Local Open Scope list_scope.
Local Open Scope Z_scope.

(** One call of a method of the source, and its answer. *)
Inductive exchange :=
| XRead (n : nat) (answer : res (list Z))
| XTell (answer : res Z)
| XSeek (to : seek_from) (answer : res unit).

(** [talk h s l s']: making the calls [l], the source goes from state [s] to [s'] and answers so. *)
Inductive talk {S} (h : IOHandler S) : S -> list exchange -> S -> Prop :=
| TalkEnd s : talk h s [] s
| TalkRead s n b s1 l s2 : io_read h s (repeat 0 n) = (Ok tt, s1, b) -> talk h s1 l s2 ->
    talk h s (XRead n (Ok b) :: l) s2
| TalkReadErr s n k s1 b l s2 : io_read h s (repeat 0 n) = (Err k, s1, b) -> talk h s1 l s2 ->
    talk h s (XRead n (Err k) :: l) s2
| TalkReadPanic s n s1 b l s2 : io_read h s (repeat 0 n) = (Panic, s1, b) -> talk h s1 l s2 ->
    talk h s (XRead n Panic :: l) s2
| TalkTell s r s1 l s2 : io_tell h s = (r, s1) -> talk h s1 l s2 -> talk h s (XTell r :: l) s2
| TalkSeek s f r s1 l s2 : io_seek h s f = (r, s1) -> talk h s1 l s2 -> talk h s (XSeek f r :: l) s2.

(** What Rust's types promise of every implementation: reading fills a buffer of bytes of the same
    length, and a position is a [usize]. *)
Definition well_typed {S} (e : env) (h : IOHandler S) : Prop :=
  (forall s n s' b, io_read h s (repeat 0 n) = (Ok tt, s', b) -> List.length b = n /\ are_bytes b) /\
  (forall s n s', io_tell h s = (Ok n, s') -> 0 <= n < usize_lim e).

Inductive request := AskRead (n : nat) | AskTell | AskSeek (to : seek_from).
Definition asked (x : exchange) : request :=
  match x with XRead n _ => AskRead n | XTell _ => AskTell | XSeek f _ => AskSeek f end.
(** The bytes that the reads delivered, in order. *)
Definition delivered (l : list exchange) : list Z :=
  flat_map (fun x => match x with XRead _ (Ok b) => b | _ => [] end) l.
Definition answered (x : exchange) : Prop :=
  match x with
  | XRead _ a => exists b, a = Ok b
  | XTell a => exists n, a = Ok n
  | XSeek _ a => a = Ok tt
  end.
Definition failed_with (k : io_err) (x : exchange) : Prop :=
  match x with XRead _ a => a = Err k | XTell a => a = Err k | XSeek _ a => a = Err k end.
Definition panicked (x : exchange) : Prop :=
  match x with XRead _ a => a = Panic | XTell a => a = Panic | XSeek _ a => a = Panic end.

(** The longest conversation: the header; the length of the source, which is asked for by seeking to
    the end and back to [pos]; the number of entries; [n] entries. *)
Definition script (pos : Z) (n : nat) : list request :=
  [AskRead 128; AskTell; AskSeek (SeekEnd 0); AskTell; AskSeek (SeekStart pos); AskRead 4] ++ repeat (AskRead 12) n.

(** The call made only calls of the script, in order, and went back to where it was told it was. *)
Definition follows_script (l : list exchange) : Prop :=
  exists pos n rest, (n <= 100)%nat /\ script pos n = map asked l ++ rest /\
    forall p, nth_error l 1 = Some (XTell (Ok p)) -> pos = p.

(** What the call must do, given the conversation [l] that it had and the source's final state [s']. *)
Definition justified {S} (e : env) (w : world) (c : Context) (l : list exchange) (s' : S) (o : outcome S) : Prop :=
  let little := feat_le e in
  let d := delivered l in
  match o_res o with
  | Ok _ =>
      o_ctx o = c /\ o_events o = [] /\ Forall answered l /\
      (exists pos len, map asked l = script pos (Z.to_nat (declared little d)) /\ nth_error l 3 = Some (XTell (Ok len)) /\
         o_profile o = spec_profile little d len (Some s')) /\
      h_magic (decode_header little d) = 1633907568 /\ real_dt (h_date (decode_header little d)) /\
      declared little d <= 100 /\
      (ovf e = true -> forall i, (i < Z.to_nat (declared little d))%nat -> overflowing little d i = false)
  | Err k =>
      (o_ctx o = c /\ o_events o = [] /\ Exists (failed_with k) l) \/
      (k = InvalidData /\ Forall answered l /\ map asked l = [AskRead 128] /\
       h_magic (decode_header little d) <> 1633907568 /\
       o_events o = [(EC_BadSignature, text "not an ICC profile, invalid signature")] /\
       o_ctx o = call_handlers w c (o_events o)) \/
      (k = InvalidData /\ Forall answered l /\ List.length l = 6%nat /\ 100 < declared little d /\
       o_events o = [(EC_Range, text "Too many tags " ++ decimal (declared little d))] /\
       o_ctx o = call_handlers w c (o_events o))
  | Panic =>
      o_ctx o = c /\ o_events o = [] /\
      (Exists panicked l \/
       (Forall answered l /\ List.length l = 5%nat /\ ~ real_dt (h_date (decode_header little d))) \/
       (Forall answered l /\ ovf e = true /\ (6 < List.length l)%nat /\ overflowing little d (List.length l - 7) = true))
  end.
