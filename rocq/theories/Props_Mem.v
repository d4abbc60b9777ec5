(** C06-C11: the memory file. *)
From Verif Require Import M_Base M_IO M_FileMem M_FileFile S_Bytes S_File
  P_FileMem P_MemProps P_FileFile P_IOProps Props_Endian.

(** C06. *)
Theorem C06_fixed_write_that_fits :
  forall (e : env) (d : list Z) (p : Z) (bs : list Z),
    0 <= p -> p + zlen bs <= zlen d ->
    let '(r, s') := mem_write e (mkMem false d p) bs in
    r = Ok tt /\ growable s' = false /\ length (mem_data s') = length d /\ mem_pos s' = p + zlen bs /\
    forall i, nth i (mem_data s') 0 =
              if (p <=? Z.of_nat i) && (Z.of_nat i <? p + zlen bs)
              then nth (i - Z.to_nat p) bs 0 else nth i d 0.
Proof. exact fixed_write_fits. Qed.
Print Assumptions C06_fixed_write_that_fits.

(** C07. *)
Theorem C07_fixed_write_overflow :
  forall (e : env) (d : list Z) (p : Z) (bs : list Z),
    0 <= p -> 0 < zlen bs -> zlen d < p + zlen bs ->
    let '(r, s') := mem_write e (mkMem false d p) bs in
    r = Err WriteZero /\ growable s' = false /\ length (mem_data s') = length d /\
    mem_pos s' = Z.max p (zlen d) /\
    forall i, nth i (mem_data s') 0 =
              if (p <=? Z.of_nat i) && (Z.of_nat i <? zlen d)
              then nth (i - Z.to_nat p) bs 0 else nth i d 0.
Proof. exact fixed_write_overflow. Qed.
Print Assumptions C07_fixed_write_overflow.

Theorem C07_fixed_write_never_panics :
  forall (e : env) (d : list Z) (p : Z) (bs : list Z),
    0 <= p -> fst (mem_write e (mkMem false d p) bs) <> Panic.
Proof. exact fixed_write_never_panics. Qed.
Print Assumptions C07_fixed_write_never_panics.

(** C08. *)
Theorem C08_memory_read_is_exact :
  forall (e : env) (s : FileMem) (buf : list Z),
    0 <= mem_pos s ->
    let '(r, s', buf') := mem_read e s buf in
    mem_data s' = mem_data s /\ growable s' = growable s /\
    ((buf = [] \/ mem_pos s + zlen buf <= zlen (mem_data s)) ->
       r = Ok tt /\ mem_pos s' = mem_pos s + zlen buf /\ length buf' = length buf /\
       forall i, (i < length buf)%nat -> nth i buf' 0 = nth (Z.to_nat (mem_pos s) + i) (mem_data s) 0) /\
    (~ (buf = [] \/ mem_pos s + zlen buf <= zlen (mem_data s)) ->
       r = Err UnexpectedEof /\ buf' = buf /\
       mem_pos s' = if eof_moves e then zlen (mem_data s) else mem_pos s).
Proof. exact mem_read_exact. Qed.
Print Assumptions C08_memory_read_is_exact.

(** C09. *)
Theorem C09_memory_seek_is_exact_or_rejected :
  forall (s : FileMem) (pos : seek_from),
    let base := match pos with SeekStart _ => 0 | SeekEnd _ => zlen (mem_data s) | SeekCurrent _ => mem_pos s end in
    let off := match pos with SeekStart n | SeekEnd n | SeekCurrent n => n end in
    call_ok (CSeek pos) -> 0 <= mem_pos s < 2 ^ 64 ->
    mem_seek s pos =
    if (0 <=? base + off) && (base + off <? 2 ^ 64)
    then (Ok tt, mkMem (growable s) (mem_data s) (base + off))
    else (Err InvalidInput, s).
Proof. exact mem_seek_exact. Qed.
Print Assumptions C09_memory_seek_is_exact_or_rejected.

(** C10.  [usize_lim e] is 2^64 or 2^32. *)
Theorem C10_reported_size_of_memory_file :
  forall (e : env) (s : FileMem),
    0 <= mem_pos s < 2 ^ 64 -> zlen (mem_data s) <= isize_max e ->
    reported_size (mem_io e) s =
    (Ok (zlen (mem_data s)), mkMem (growable s) (mem_data s) (mem_pos s mod usize_lim e)).
Proof. exact (fun e s Hp Hl => reported_size_mem e s (conj Hp Hl)). Qed.
Print Assumptions C10_reported_size_of_memory_file.

Theorem C10_memory_position_neutral :
  forall (e : env) (s : FileMem),
    0 <= mem_pos s < usize_lim e -> zlen (mem_data s) <= isize_max e ->
    reported_size (mem_io e) s = (Ok (zlen (mem_data s)), s).
Proof. exact reported_size_mem_neutral. Qed.
Print Assumptions C10_memory_position_neutral.

Theorem C10_reported_size_of_file :
  forall (e : env) (s : File),
    0 <= f_pos s <= off_max -> zlen (f_data s) <= off_max -> zlen (f_data s) < usize_lim e ->
    reported_size (file_io e) s =
    (Ok (zlen (f_data s)),
     mkFile (f_data s) (f_pos s mod usize_lim e) (f_readable s) (f_writable s) (f_sched s)).
Proof. exact reported_size_file. Qed.
Print Assumptions C10_reported_size_of_file.

(** On a 32-bit target a far position is lost. *)
Definition pc32 : env := mkEnv false false true false false false.
Theorem C10_position_neutral_on_32bit_refuted :
  reported_size (mem_io pc32) (mkMem true [1; 2; 3] (2 ^ 32 + 1)) = (Ok 3, mkMem true [1; 2; 3] 1).
Proof. exact eq_refl. Qed.
Print Assumptions C10_position_neutral_on_32bit_refuted.

(** C11. *)
Theorem C11_growable_memory_refines_abstract_file :
  forall (e : env) (cs : list call) (d : list Z) (p : Z),
    Forall call_ok cs -> 0 <= p < 2 ^ 64 -> zlen d <= isize_max e ->
    let '(answers, s) := run_calls (call_on (mem_io e)) cs (mkMem true d p) in
    let '(answers', a) := run_calls (a_call (usize_lim e) (isize_max e) (eof_moves e) (pads_empty e)) cs (a_of d p) in
    answers = answers' /\ growable s = true /\ a_same (a_of (mem_data s) (mem_pos s)) a.
Proof. exact mem_history_from. Qed.
Print Assumptions C11_growable_memory_refines_abstract_file.

(** Concrete cases. *)
Example ex_fits : mem_write pc (mkMem false [0; 1; 2; 3; 4] 1) [7; 8; 9] = (Ok tt, mkMem false [0; 7; 8; 9; 4] 4).
Proof. reflexivity. Qed.
Example ex_overflow : mem_write pc (mkMem false [0; 1; 2; 3; 4] 3) [7; 8; 9] = (Err WriteZero, mkMem false [0; 1; 2; 7; 8] 5).
Proof. reflexivity. Qed.
Example ex_overflow_beyond : mem_write pc (mkMem false [0; 1] 9) [7] = (Err WriteZero, mkMem false [0; 1] 9).
Proof. reflexivity. Qed.
Example ex_read : mem_read pc (mkMem false [0; 1; 2; 3; 4] 2) [9; 9; 9] = (Ok tt, mkMem false [0; 1; 2; 3; 4] 5, [2; 3; 4]).
Proof. reflexivity. Qed.
Example ex_read_eof : mem_read pc (mkMem false [0; 1; 2; 3; 4] 3) [9; 9; 9] = (Err UnexpectedEof, mkMem false [0; 1; 2; 3; 4] 3, [9; 9; 9]).
Proof. reflexivity. Qed.
Example ex_seek_end : mem_seek (mkMem true [0; 1; 2; 3; 4] 2) (SeekEnd (-2)) = (Ok tt, mkMem true [0; 1; 2; 3; 4] 3).
Proof. reflexivity. Qed.
Example ex_seek_neg : mem_seek (mkMem true [0; 1; 2] 2) (SeekCurrent (-3)) = (Err InvalidInput, mkMem true [0; 1; 2] 2).
Proof. reflexivity. Qed.
(** Writing nothing beyond the end, with an older and a newer std. *)
Example ex_write_nothing :
  mem_write pc (mkMem true [1] 3) [] = (Ok tt, mkMem true [1] 3) /\
  mem_write (mkEnv false false true true true true) (mkMem true [1] 3) [] = (Ok tt, mkMem true [1; 0; 0] 3).
Proof. split; reflexivity. Qed.
Example ex_history :
  run_calls (call_on (mem_io pc))
    [CWrite [1; 2]; CSeek (SeekCurrent 2); CWrite [5]; CSize; CSeek (SeekStart 1); CRead 4; CRead 1; CTell]
    (mem_new true [])
  = ([Ok AUnit; Ok AUnit; Ok AUnit; Ok (ANum 5); Ok AUnit; Ok (ABytes [2; 0; 0; 5]); Err UnexpectedEof; Ok (ANum 5)],
     mkMem true [1; 2; 0; 0; 5] 5).
Proof. reflexivity. Qed.
