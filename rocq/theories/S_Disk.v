(** Specification: what a client sees of a file of the operating system and of a buffer of fixed length. *)
From Verif Require Import S_Bytes S_File M_Base M_IO.

(** A read of [n] bytes; [after]: where a read beyond the end leaves the position. *)
Definition a_read (n : nat) (after : Z) (a : afile) : res answer * afile :=
  if (n =? 0)%nat then (Ok (ABytes []), a)
  else if a_pos a + Z.of_nat n <=? a_len a
  then (Ok (ABytes (a_range a (a_pos a) n)), a_move a (a_pos a + Z.of_nat n))
  else (Err UnexpectedEof, a_move a after).

(** A write into a file that cannot extend beyond [limit]: what fits is stored, then error [er]. *)
Definition a_write (limit : Z) (er : io_err) (bs : list Z) (a : afile) : res answer * afile :=
  if (length bs =? 0)%nat then (Ok AUnit, a)
  else if a_pos a + Z.of_nat (length bs) <=? limit then (Ok AUnit, a_store a bs)
  else (Err er, if limit <=? a_pos a then a else a_store a (firstn (Z.to_nat (limit - a_pos a)) bs)).

(** Where a seek wants to go. *)
Definition a_target (p : seek_from) (a : afile) : Z :=
  match p with SeekStart n => n | SeekEnd n => a_len a + n | SeekCurrent n => a_pos a + n end.

(** A file on disk, opened with the rights [rd] and [wr], on a machine with [idx] addresses.  Offsets go
    up to 2^63-1; positions are told modulo [idx]. *)
Definition a_disk_call (idx : Z) (rd wr : bool) (c : call) (a : afile) : res answer * afile :=
  let limit := 9223372036854775807 in
  match c with
  | CRead n =>
      if negb rd && negb (n =? 0)%nat then (Err OsError, a) else a_read n (Z.max (a_pos a) (a_len a)) a
  | CWrite bs =>
      if negb wr && negb (length bs =? 0)%nat then (Err OsError, a) else a_write limit OsError bs a
  | CSeek p =>
      let q := a_target p a in
      if q <? 0 then (Err InvalidInput, a)
      else if q <=? limit then (Ok AUnit, a_move a q)
      else (Err (match p with SeekStart _ => InvalidInput | _ => OsError end), a)
  | CTell => (Ok (ANum (a_pos a mod idx)), a)
  | CSize => (Ok (ANum (a_len a mod idx)), a_move a (a_pos a mod idx))
  end.

(** A buffer of fixed length in memory. *)
Definition a_buffer_call (idx : Z) (eof_end : bool) (c : call) (a : afile) : res answer * afile :=
  match c with
  | CRead n => a_read n (if eof_end then a_len a else a_pos a) a
  | CWrite bs => a_write (a_len a) WriteZero bs a
  | CSeek p =>
      let q := a_target p a in
      if (0 <=? q) && (q <? 2 ^ 64) then (Ok AUnit, a_move a q) else (Err InvalidInput, a)
  | CTell => (Ok (ANum (a_pos a mod idx)), a)
  | CSize => (Ok (ANum (a_len a)), a_move a (a_pos a mod idx))
  end.

(** The system gave up in the middle of the call: the client is told [OsError]; a read has passed over
    fewer bytes than asked for, all of them in the file; a write has stored fewer bytes than given. *)
Definition a_given_up (rd wr : bool) (c : call) (a a' : afile) : Prop :=
  match c with
  | CRead n =>
      rd = true /\ exists k, (k < n)%nat /\ (k = 0%nat \/ a_pos a + Z.of_nat k <= a_len a) /\
        a' = a_move a (a_pos a + Z.of_nat k)
  | CWrite bs =>
      wr = true /\ exists k, (k < length bs)%nat /\ a_pos a + Z.of_nat k <= 9223372036854775807 /\
        a' = (if (k =? 0)%nat then a else a_store a (firstn k bs))
  | _ => False
  end.

(** A history of a file on disk in which the system gave up in the middle of [n] calls. *)
Inductive a_disk_history (idx : Z) (rd wr : bool) : nat -> list call -> afile -> list (res answer) -> afile -> Prop :=
| no_calls a : a_disk_history idx rd wr 0 [] a [] a
| call_carried_out n c cs a xs a' :
    a_disk_history idx rd wr n cs (snd (a_disk_call idx rd wr c a)) xs a' ->
    a_disk_history idx rd wr n (c :: cs) a (fst (a_disk_call idx rd wr c a) :: xs) a'
| call_given_up n c cs a a1 xs a' :
    a_given_up rd wr c a a1 -> a_disk_history idx rd wr n cs a1 xs a' ->
    a_disk_history idx rd wr (S n) (c :: cs) a (Err OsError :: xs) a'.
