(** C20-C22, C65: [std::fs::File]. *)
From Verif Require Import M_Base M_IO M_FileMem M_FileNull M_FileFile M_Durable S_Bytes S_File S_Conditions
  P_FileFile P_IOProps Props_Endian.

(** C20.  [no_fail sched]: the schedule may shorten and interrupt at will, but not fail. *)
Theorem C20_file_read_is_schedule_independent :
  forall (s : File) (buf : list Z),
    f_readable s = true -> 0 <= f_pos s -> no_fail (f_sched s) ->
    let '(r, s', buf') := file_read s buf in
    f_data s' = f_data s /\
    ((buf = [] \/ f_pos s + zlen buf <= zlen (f_data s)) ->
       r = Ok tt /\ f_pos s' = f_pos s + zlen buf /\ length buf' = length buf /\
       forall i, (i < length buf)%nat -> nth i buf' 0 = nth (Z.to_nat (f_pos s) + i) (f_data s) 0) /\
    (~ (buf = [] \/ f_pos s + zlen buf <= zlen (f_data s)) ->
       r = Err UnexpectedEof /\ f_pos s' = Z.max (f_pos s) (zlen (f_data s))).
Proof. exact file_read_split. Qed.
Print Assumptions C20_file_read_is_schedule_independent.

Theorem C20_file_read_never_writes_or_panics :
  forall (s : File) (buf : list Z),
    0 <= f_pos s ->
    let '(r, s', buf') := file_read s buf in f_data s' = f_data s /\ r <> Panic /\ length buf' = length buf.
Proof. exact file_read_any. Qed.
Print Assumptions C20_file_read_never_writes_or_panics.

(** C21. *)
Theorem C21_file_write_is_schedule_independent :
  forall (s : File) (bs : list Z),
    f_writable s = true -> 0 <= f_pos s -> f_pos s + zlen bs <= off_max -> no_fail (f_sched s) ->
    let '(r, s') := file_write s bs in
    r = Ok tt /\ f_pos s' = f_pos s + zlen bs /\
    zlen (f_data s') =
      (if (length bs =? 0)%nat then zlen (f_data s) else Z.max (zlen (f_data s)) (f_pos s + zlen bs)) /\
    forall i, nth i (f_data s') 0 =
      if (f_pos s <=? Z.of_nat i) && (Z.of_nat i <? f_pos s + zlen bs)
      then nth (i - Z.to_nat (f_pos s)) bs 0 else nth i (f_data s) 0.
Proof. exact file_write_split. Qed.
Print Assumptions C21_file_write_is_schedule_independent.

(** Under any schedule: exactly a prefix of [k] bytes is stored, all of it iff [Ok]. *)
Theorem C21_failed_write_stores_a_prefix :
  forall (s : File) (bs : list Z),
    f_writable s = true -> 0 <= f_pos s <= off_max ->
    let '(r, s') := file_write s bs in
    exists k, (k <= length bs)%nat /\
      (r = Ok tt /\ k = length bs \/ r = Err OsError /\ (k < length bs)%nat) /\
      f_pos s' = f_pos s + Z.of_nat k /\
      zlen (f_data s') =
        (if (k =? 0)%nat then zlen (f_data s) else Z.max (zlen (f_data s)) (f_pos s + Z.of_nat k)) /\
      forall i, nth i (f_data s') 0 =
        if (f_pos s <=? Z.of_nat i) && (Z.of_nat i <? f_pos s + Z.of_nat k)
        then nth (i - Z.to_nat (f_pos s)) bs 0 else nth i (f_data s) 0.
Proof. exact file_write_any. Qed.
Print Assumptions C21_failed_write_stores_a_prefix.

(** C22.  64-bit targets: on 32-bit ones a memory file stops at 2^31-1 bytes. *)
Theorem C22_memory_and_disk_are_interchangeable :
  forall (e : env) (cs : list call) (d : list Z) (p : Z) (sched : list os_event),
    is64 e = true -> Forall call_ok cs -> Forall (plain_write e) cs -> 0 <= p <= off_max -> zlen d <= off_max ->
    let '(answers, f) := run_calls (call_on (file_io e)) cs (mkFile d p true true sched) in
    let '(answers', m) := run_calls (call_on (mem_io e)) cs (mkMem true d p) in
    (forall x, In x answers -> exists a, x = Ok a) ->
    answers' = answers /\ mem_data m = f_data f /\ mem_pos m = f_pos f.
Proof. exact file_mem_interchange. Qed.
Print Assumptions C22_memory_and_disk_are_interchangeable.

(** The exception: with a newer std, an empty write beyond the end makes a file in memory longer, one on disk not. *)
Theorem C22_empty_write_refuted :
  let newer := mkEnv false false true true true true in
  let cs := [CSeek (SeekStart 5); CWrite []; CSize] in
  fst (run_calls (call_on (mem_io newer)) cs (mkMem true [7] 0)) = [Ok AUnit; Ok AUnit; Ok (ANum 5)] /\
  fst (run_calls (call_on (file_io newer)) cs (mkFile [7] 0 true true [])) = [Ok AUnit; Ok AUnit; Ok (ANum 1)].
Proof. exact (conj eq_refl eq_refl). Qed.
Print Assumptions C22_empty_write_refuted.

(** C65.  Any history of calls on a file whose content was on disk, then a successful [close]. *)
Theorem C65_closed_data_is_durable :
  forall (e : env) (cs : list call) (f : File) (s' : DFile),
    let s := snd (run_calls (call_on (d_io e)) cs (d_open f)) in
    file_close s = (Ok tt, s') ->
    forall c, crash_content s' c <-> c = f_data (snd (run_calls (call_on (file_io e)) cs f)).
Proof. exact close_durable. Qed.
Print Assumptions C65_closed_data_is_durable.

Theorem C65_without_close_old_content_may_return :
  forall (e : env) (cs : list call) (f : File),
    crash_content (snd (run_calls (call_on (d_io e)) cs (d_open f))) (f_data f).
Proof. exact no_close_not_durable. Qed.
Print Assumptions C65_without_close_old_content_may_return.

(** [close] fails exactly if the system refuses to write the data out, which may follow interruptions; it then changes nothing. *)
Theorem C65_when_close_fails :
  forall s : DFile, let refused := exists n rest, f_sched (d_file s) = repeat EvIntr n ++ EvFail :: rest in
    (refused -> file_close s = (Err OsError, s)) /\
    (~ refused -> fst (file_close s) = Ok tt /\ d_file (snd (file_close s)) = d_file s).
Proof. exact close_cases. Qed.
Print Assumptions C65_when_close_fails.

(** Memory and null sources have nothing to write out. *)
Theorem C65_other_closes_succeed : (forall s, mem_close s = Ok tt) /\ (forall s, null_close s = Ok tt).
Proof. split; reflexivity. Qed.
Print Assumptions C65_other_closes_succeed.

(** Concrete cases: short transfers, interruptions and a failure. *)
Definition bumpy : list os_event := [EvShort 1; EvIntr; EvShort 0; EvIntr; EvFull].
Example bumpy_ok : no_fail bumpy.
Proof. repeat constructor; discriminate. Qed.
Example bumpy_read :
  file_read (mkFile [1; 2; 3; 4; 5] 1 true true bumpy) [0; 0; 0] =
  (Ok tt, mkFile [1; 2; 3; 4; 5] 4 true true [], [2; 3; 4]).
Proof. reflexivity. Qed.
Example bumpy_eof :
  file_read (mkFile [1; 2; 3] 1 true true bumpy) [9; 9; 9] =
  (Err UnexpectedEof, mkFile [1; 2; 3] 3 true true [], [2; 3; 9]).
Proof. reflexivity. Qed.
Example bumpy_write :
  file_write (mkFile [1] 2 true true bumpy) [7; 8; 9] = (Ok tt, mkFile [1; 0; 7; 8; 9] 5 true true []).
Proof. reflexivity. Qed.
Example failing_write :
  file_write (mkFile [1] 2 true true [EvShort 2; EvFail]) [7; 8; 9] =
  (Err OsError, mkFile [1; 0; 7; 8] 4 true true []).
Proof. reflexivity. Qed.
Example history_ok :
  run_calls (call_on (file_io pc)) [CWrite [7; 8]; CSize; CSeek (SeekEnd (-3)); CRead 3] (mkFile [1] 2 true true bumpy)
  = ([Ok AUnit; Ok (ANum 4); Ok AUnit; Ok (ABytes [0; 7; 8])], mkFile [1; 0; 7; 8] 4 true true []).
Proof. reflexivity. Qed.
Example close_ok :
  exists s', file_close (snd (run_calls (call_on (d_io pc)) [CWrite [7; 8]] (d_open (mkFile [1] 0 true true [EvFull; EvIntr]))))
             = (Ok tt, s') /\ d_versions s' = [[7; 8]].
Proof. eexists. split; reflexivity. Qed.
Example close_refused : let s := d_open (mkFile [1] 0 true true [EvIntr; EvFail]) in file_close s = (Err OsError, s).
Proof. reflexivity. Qed.
(** A crash before [close] may mix the old and new content byte by byte. *)
Example mixed :
  crash_content (snd (run_calls (call_on (d_io pc)) [CWrite [7; 8]] (d_open (mkFile [1; 2] 0 true true [])))) [7; 2].
Proof.
  split; [exists [1; 2]; simpl; auto|].
  intros [|[|i]] Hi; simpl in *; [exists [7; 8]|exists [1; 2]|lia]; auto.
Qed.
