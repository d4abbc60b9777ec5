(** C22 (from memory to disk) and C98: files and fixed buffers as abstract files. *)
From Verif Require Import M_Base M_IO M_FileMem M_FileFile S_Bytes S_File S_Conditions S_Disk
  P_FileMem P_FileFile P_Disk P_Failing Props_Endian.

(** C22, the other direction: what works in memory works on disk, however the system splits the
    transfers, as long as the position stays below 2^63. *)
Theorem C22_disk_and_memory_are_interchangeable :
  forall (e : env) (cs : list call) (d : list Z) (p : Z) (sched : list os_event),
    is64 e = true -> Forall call_ok cs -> Forall (plain_write e) cs -> 0 <= p <= off_max -> zlen d <= off_max -> no_fail sched ->
    let mem k := snd (run_calls (call_on (mem_io e)) (firstn k cs) (mkMem true d p)) in
    (forall k, mem_pos (mem k) <= off_max) ->
    let '(answers, m) := run_calls (call_on (mem_io e)) cs (mkMem true d p) in
    let '(answers', f) := run_calls (call_on (file_io e)) cs (mkFile d p true true sched) in
    (forall x, In x answers -> exists a, x = Ok a) ->
    answers' = answers /\ f_data f = mem_data m /\ f_pos f = mem_pos m.
Proof. exact mem_file_interchange. Qed.
Print Assumptions C22_disk_and_memory_are_interchangeable.

(** C98.  Any history, errors included, on a file opened with any rights, on any machine. *)
Theorem C98_files_are_abstract_files :
  forall (e : env) (rd wr : bool) (cs : list call) (d : list Z) (p : Z) (sched : list os_event),
    Forall call_ok cs -> 0 <= p <= 2 ^ 63 - 1 -> zlen d <= 2 ^ 63 - 1 -> no_fail sched ->
    let '(answers, f) := run_calls (call_on (file_io e)) cs (mkFile d p rd wr sched) in
    let '(answers', a) := run_calls (a_disk_call (usize_lim e) rd wr) cs (a_of d p) in
    answers = answers' /\ a_same (a_of (f_data f) (f_pos f)) a.
Proof.
  exact (fun e rd wr cs d p sched Hc Hp Hl Hn =>
    disk_history e rd wr cs (mkFile d p rd wr sched) (a_of d p) Hc
      (mkDisk rd wr (mkFile d p rd wr sched) eq_refl eq_refl Hp Hl Hn) (a_same_refl _)).
Qed.
Print Assumptions C98_files_are_abstract_files.

(** With hard errors as well: as many calls at most are given up as the system fails system calls, each
    of them having done part of its work, and everything else is as before. *)
Theorem C98_failing_files :
  forall (e : env) (rd wr : bool) (cs : list call) (d : list Z) (p : Z) (sched : list os_event),
    Forall call_ok cs -> 0 <= p <= 2 ^ 63 - 1 -> zlen d <= 2 ^ 63 - 1 ->
    let '(answers, f) := run_calls (call_on (file_io e)) cs (mkFile d p rd wr sched) in
    exists n a,
      (n <= length (filter (fun ev => match ev with EvFail => true | _ => false end) sched))%nat /\
      a_disk_history (usize_lim e) rd wr n cs (a_of d p) answers a /\
      a_same (a_of (f_data f) (f_pos f)) a.
Proof.
  exact (fun e rd wr cs d p sched Hc Hp Hl =>
    failing_history e rd wr cs (mkFile d p rd wr sched) (a_of d p) Hc
      (mkDiskIn rd wr (mkFile d p rd wr sched) eq_refl eq_refl Hp Hl) (a_same_refl _)).
Qed.
Print Assumptions C98_failing_files.

(** A history in which nothing is given up is the one of [C98_files_are_abstract_files]. *)
Theorem C98_undisturbed_history :
  forall (idx : Z) (rd wr : bool) (cs : list call) (a : afile) (answers : list (res answer)) (a' : afile),
    a_disk_history idx rd wr 0 cs a answers a' -> run_calls (a_disk_call idx rd wr) cs a = (answers, a').
Proof. exact history_zero. Qed.
Print Assumptions C98_undisturbed_history.

(** The buffer types that do not grow: [&mut [u8]] and [Box<[u8]>]. *)
Theorem C98_fixed_buffers_are_abstract_files :
  forall (e : env) (cs : list call) (d : list Z) (p : Z),
    Forall call_ok cs -> 0 <= p < 2 ^ 64 -> zlen d <= isize_max e ->
    let '(answers, m) := run_calls (call_on (mem_io e)) cs (mkMem false d p) in
    let '(answers', a) := run_calls (a_buffer_call (usize_lim e) (eof_moves e)) cs (a_of d p) in
    answers = answers' /\ a_same (a_of (mem_data m) (mem_pos m)) a /\ length (mem_data m) = length d.
Proof.
  exact (fun e cs d p Hc Hp Hl =>
    buffer_history e cs (mkMem false d p) (a_of d p) Hc (conj Hp Hl) eq_refl (a_same_refl _)).
Qed.
Print Assumptions C98_fixed_buffers_are_abstract_files.

(** Concrete cases: a history with short transfers, a read beyond the end, a seek before the start, a
    write without the right, and a write that runs into the offset limit. *)
Definition rough : list os_event := [EvShort 1; EvIntr; EvShort 2; EvFull; EvIntr].
Definition rough_calls : list call :=
  [CWrite [7; 8; 9]; CSeek (SeekEnd (-2)); CRead 2; CRead 1; CTell; CSeek (SeekCurrent (-9)); CSize].
Example rough_ok : no_fail rough /\ Forall call_ok rough_calls.
Proof.
  split; repeat (apply Forall_cons || apply Forall_nil); cbn; try discriminate; try exact I; try lia;
    repeat constructor; unfold is_byte; lia.
Qed.
Example rough_disk :
  run_calls (call_on (file_io pc)) rough_calls (mkFile [1] 2 true true rough)
  = ([Ok AUnit; Ok AUnit; Ok (ABytes [8; 9]); Err UnexpectedEof; Ok (ANum 5); Err InvalidInput; Ok (ANum 5)],
     mkFile [1; 0; 7; 8; 9] 5 true true []) /\
  fst (run_calls (a_disk_call (2 ^ 64) true true) rough_calls (a_of [1] 2))
  = [Ok AUnit; Ok AUnit; Ok (ABytes [8; 9]); Err UnexpectedEof; Ok (ANum 5); Err InvalidInput; Ok (ANum 5)].
Proof. split; reflexivity. Qed.
Example read_only_disk :
  fst (run_calls (call_on (file_io pc)) [CWrite [7]; CWrite []; CRead 1] (mkFile [1] 0 true false []))
  = [Err OsError; Ok AUnit; Ok (ABytes [1])].
Proof. reflexivity. Qed.
Example seek_limits :
  fst (run_calls (call_on (file_io pc))
        [CSeek (SeekStart (2 ^ 63)); CSeek (SeekStart (2 ^ 63 - 1)); CSeek (SeekCurrent 1); CTell] (mkFile [1] 0 true true []))
  = [Err InvalidInput; Ok AUnit; Err OsError; Ok (ANum 9223372036854775807)].
Proof. reflexivity. Qed.
Example fixed_buffer :
  run_calls (call_on (mem_io pc)) [CWrite [7; 8; 9; 10]; CTell; CWrite [1]; CSeek (SeekStart 1); CRead 2] (mkMem false [1; 2; 3] 0)
  = ([Err WriteZero; Ok (ANum 3); Err WriteZero; Ok AUnit; Ok (ABytes [8; 9])], mkMem false [7; 8; 9] 3).
Proof. reflexivity. Qed.
(** Memory to disk: the two histories agree on a sample; the positions stay small. *)
Definition plain_calls : list call := [CWrite [7; 8; 9]; CSeek (SeekEnd (-2)); CRead 2; CSize].
Example plain_ok : forall e, Forall call_ok plain_calls /\ Forall (plain_write e) plain_calls.
Proof.
  intros e. split; repeat (apply Forall_cons || apply Forall_nil); cbn; try exact I; try lia; try (left; discriminate);
    repeat constructor; unfold is_byte; lia.
Qed.
Example plain_both :
  fst (run_calls (call_on (mem_io pc)) plain_calls (mkMem true [1] 2))
    = [Ok AUnit; Ok AUnit; Ok (ABytes [8; 9]); Ok (ANum 5)] /\
  fst (run_calls (call_on (file_io pc)) plain_calls (mkFile [1] 2 true true rough))
    = [Ok AUnit; Ok AUnit; Ok (ABytes [8; 9]); Ok (ANum 5)] /\
  map (fun k => mem_pos (snd (run_calls (call_on (mem_io pc)) (firstn k plain_calls) (mkMem true [1] 2)))) [0; 1; 2; 3; 4]%nat
    = [2; 5; 3; 5; 5].
Proof. repeat split. Qed.
(** A disk that fails twice: a write that stored one byte of three, a read that passed one byte of two. *)
Definition broken : list os_event := [EvShort 1; EvFail; EvFull; EvShort 1; EvIntr; EvFail].
Definition broken_calls : list call := [CWrite [7; 8; 9]; CTell; CWrite [5]; CSeek (SeekStart 0); CRead 2; CTell; CRead 2].
Example broken_disk :
  run_calls (call_on (file_io pc)) broken_calls (mkFile [1; 2; 3] 0 true true broken)
  = ([Err OsError; Ok (ANum 1); Ok AUnit; Ok AUnit; Err OsError; Ok (ANum 1); Ok (ABytes [5; 3])],
     mkFile [7; 5; 3] 3 true true []).
Proof. reflexivity. Qed.
Example broken_history : exists a,
  a_disk_history (2 ^ 64) true true 2 broken_calls (a_of [1; 2; 3] 0)
    [Err OsError; Ok (ANum 1); Ok AUnit; Ok AUnit; Err OsError; Ok (ANum 1); Ok (ABytes [5; 3])] a.
Proof.
  eexists. eapply call_given_up; [split; [reflexivity|]; exists 1%nat; cbn; repeat split; lia|].
  refine (call_carried_out _ _ _ _ CTell _ _ _ _ _).
  refine (call_carried_out _ _ _ _ (CWrite [5]) _ _ _ _ _).
  refine (call_carried_out _ _ _ _ (CSeek (SeekStart 0)) _ _ _ _ _).
  eapply call_given_up; [split; [reflexivity|]; exists 1%nat; cbn; repeat split; lia|].
  refine (call_carried_out _ _ _ _ CTell _ _ _ _ _).
  refine (call_carried_out _ _ _ _ (CRead 2) _ _ _ _ _).
  apply no_calls.
Qed.
