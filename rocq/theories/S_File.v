(** Specification: an abstract random-access file, and histories of handler calls. *)
From Verif Require Import S_Bytes M_Base M_IO.

(** A file is a length, a byte for every offset (bytes at or beyond the length read as 0 once they come
    into existence) and a position. *)
Record afile := mkA { a_len : Z; a_byte : Z -> Z; a_pos : Z }.

Definition a_get (a : afile) (i : Z) : Z := if (0 <=? i) && (i <? a_len a) then a_byte a i else 0.

(** The [n] bytes from offset [i] on. *)
Fixpoint a_range (a : afile) (i : Z) (n : nat) : list Z :=
  match n with O => [] | S m => a_get a i :: a_range a (i + 1) m end.

(** Storing [bs] at the position. *)
Definition a_store (a : afile) (bs : list Z) : afile :=
  let n := Z.of_nat (length bs) in
  mkA (Z.max (a_len a) (a_pos a + n))
      (fun i => if (a_pos a <=? i) && (i <? a_pos a + n)
                then nth (Z.to_nat (i - a_pos a)) bs 0 else a_get a i)
      (a_pos a + n).

Definition a_move (a : afile) (p : Z) : afile := mkA (a_len a) (a_byte a) p.

(** The calls a client can make. *)
Inductive call :=
| CRead (n : nat)
| CWrite (bs : list Z)
| CSeek (p : seek_from)
| CTell
| CSize.

Inductive answer := ABytes (bs : list Z) | AUnit | ANum (n : Z).

Definition map_res {A B} (f : A -> B) (r : res A) : res B :=
  match r with Ok a => Ok (f a) | Err e => Err e | Panic => Panic end.

(** Driving any handler. *)
Definition call_on {S} (h : IOHandler S) (c : call) (s : S) : res answer * S :=
  match c with
  | CRead n => let '(r, s') := read_array h n s in (map_res ABytes r, s')
  | CWrite bs => let '(r, s') := io_write h s bs in (map_res (fun _ => AUnit) r, s')
  | CSeek p => let '(r, s') := io_seek h s p in (map_res (fun _ => AUnit) r, s')
  | CTell => let '(r, s') := io_tell h s in (map_res ANum r, s')
  | CSize => let '(r, s') := reported_size h s in (map_res ANum r, s')
  end.

(** A history: every call is made whatever the earlier ones returned, up to a panic. *)
Fixpoint run_calls {S} (step : call -> S -> res answer * S) (cs : list call) (s : S)
  : list (res answer) * S :=
  match cs with
  | [] => ([], s)
  | c :: r =>
      match step c s with
      | (Panic, s') => ([Panic], s')
      | (x, s') => let '(xs, s'') := run_calls step r s' in (x :: xs, s'')
      end
  end.

(** The abstract file's behaviour.  [idx]: number of addressable offsets (2^32 or 2^64); [cap]: largest
    size; [eof_end]: whether a failed read leaves the position at the end; [pads]: whether writing no bytes
    brings the bytes before the position into existence. *)
Definition a_call (idx cap : Z) (eof_end pads : bool) (c : call) (a : afile) : res answer * afile :=
  match c with
  | CRead n =>
      if (n =? 0)%nat then (Ok (ABytes []), a)
      else if a_pos a + Z.of_nat n <=? a_len a
      then (Ok (ABytes (a_range a (a_pos a) n)), a_move a (a_pos a + Z.of_nat n))
      else (Err UnexpectedEof, if eof_end then a_move a (a_len a) else a)
  | CWrite bs =>
      if (length bs =? 0)%nat && negb pads then (Ok AUnit, a)
      else if idx <=? a_pos a then (Err InvalidInput, a)
      else if cap <? a_pos a + Z.of_nat (length bs) then (Panic, a)
      else (Ok AUnit, a_store a bs)
  | CSeek p =>
      let go q := if (0 <=? q) && (q <? 2 ^ 64) then (Ok AUnit, a_move a q) else (Err InvalidInput, a) in
      match p with
      | SeekStart n => go n
      | SeekEnd n => go (a_len a + n)
      | SeekCurrent n => go (a_pos a + n)
      end
  | CTell => (Ok (ANum (a_pos a mod idx)), a)
  | CSize => (Ok (ANum (a_len a)), a_move a (a_pos a mod idx))
  end.

(** Two abstract files that no client can tell apart. *)
Definition a_same (a b : afile) : Prop :=
  a_len a = a_len b /\ a_pos a = a_pos b /\ forall i, 0 <= i < a_len a -> a_byte a i = a_byte b i.

(** The abstract file of a byte string. *)
Definition a_of (d : list Z) (p : Z) : afile := mkA (Z.of_nat (length d)) (fun i => nth (Z.to_nat i) d 0) p.

(** Machine-representable arguments. *)
Definition call_ok (c : call) : Prop :=
  match c with
  | CWrite bs => are_bytes bs
  | CSeek (SeekStart n) => 0 <= n < 2 ^ 64
  | CSeek (SeekEnd n) | CSeek (SeekCurrent n) => - 2 ^ 63 <= n < 2 ^ 63
  | _ => True
  end.
