(** C17-C19: the null file. *)
From Verif Require Import M_Base M_F64 M_IO M_FileMem M_FileFile M_FileNull S_Bytes S_File S_Conditions
  P_FileMem P_FileFile P_FileNull Props_Endian.

(** C17.  In every state with room below [usize::MAX]. *)
Theorem C17_typed_integer_reads_give_zero :
  forall (e : env) (s : FileNull),
    (pointer s + 1 < usize_lim e -> read_u8 (null_io e) s = (Ok 0, mkNull (pointer s + 1) (used_space s))) /\
    (pointer s + 2 < usize_lim e -> read_u16 e (null_io e) s = (Ok 0, mkNull (pointer s + 2) (used_space s))) /\
    (pointer s + 4 < usize_lim e -> read_u32 e (null_io e) s = (Ok 0, mkNull (pointer s + 4) (used_space s))) /\
    (pointer s + 8 < usize_lim e -> read_u64 e (null_io e) s = (Ok 0, mkNull (pointer s + 8) (used_space s))).
Proof. exact null_read_u. Qed.
Print Assumptions C17_typed_integer_reads_give_zero.

Theorem C17_typed_real_reads_give_zero :
  forall (e : env) (s : FileNull),
    (pointer s + 4 < usize_lim e ->
       read_f32 e (null_io e) s = (Ok (f32_of_bits 0), mkNull (pointer s + 4) (used_space s))) /\
    (pointer s + 4 < usize_lim e ->
       read_s15f16 e (null_io e) s = (Ok (f64_of_int 0), mkNull (pointer s + 4) (used_space s))) /\
    (0 <= pointer s -> pointer s + 12 < usize_lim e ->
       read_xyz e (null_io e) s =
       (Ok (mkXYZ (f64_of_int 0) (f64_of_int 0) (f64_of_int 0)), mkNull (pointer s + 12) (used_space s))).
Proof. exact (fun e s => conj (null_read_f32 e s) (conj (null_read_s15 e s) (null_read_xyz e s))). Qed.
Print Assumptions C17_typed_real_reads_give_zero.

Theorem C17_raw_read_leaves_buffer :
  forall (e : env) (s : FileNull) (buf : list Z),
    pointer s + zlen buf < usize_lim e ->
    null_read e s buf = (Ok tt, mkNull (pointer s + zlen buf) (used_space s), buf).
Proof. exact null_read_ok. Qed.
Print Assumptions C17_raw_read_leaves_buffer.

(** "A read delivers zeros" is therefore false of the raw call. *)
Theorem C17_raw_read_delivers_zeros_refuted :
  exists e s buf, fst (fst (null_read e s buf)) = Ok tt /\ snd (null_read e s buf) <> repeat 0 (length buf).
Proof. exact (ex_intro _ pc (ex_intro _ null_new (ex_intro _ [1] (conj eq_refl (fun H => eq_ind [1] (fun l => match l with [1] => True | _ => False end) I _ H))))). Qed.
Print Assumptions C17_raw_read_delivers_zeros_refuted.

(** C18.  Complete description on any target and build ... *)
Theorem C18_null_seek :
  forall (e : env) (s : FileNull) (pos : seek_from),
    null_wf e s -> call_ok (CSeek pos) ->
    let base := match pos with SeekStart _ => 0 | SeekEnd _ => used_space s | SeekCurrent _ => pointer s end in
    let off := match pos with SeekStart n | SeekEnd n | SeekCurrent n => n end in
    null_seek e s pos =
    if ovf e && (usize_lim e <=? base + off mod usize_lim e)
    then (Panic, s)
    else (Ok tt, mkNull ((base + off) mod usize_lim e) (used_space s)).
Proof. exact null_seek_eq. Qed.
Print Assumptions C18_null_seek.

Theorem C18_null_read_and_write :
  forall (e : env) (s : FileNull) (buf : list Z),
    null_wf e s ->
    null_read e s buf =
      (if ovf e && (usize_lim e <=? pointer s + zlen buf) then (Panic, s, buf)
       else (Ok tt, mkNull ((pointer s + zlen buf) mod usize_lim e) (used_space s), buf)) /\
    null_write e s buf =
      (if ovf e && (usize_lim e <=? pointer s + zlen buf) then (Panic, s)
       else let p := (pointer s + zlen buf) mod usize_lim e in (Ok tt, mkNull p (Z.max (used_space s) p))).
Proof. exact null_move_eq. Qed.
Print Assumptions C18_null_read_and_write.

(** ... and what it means on a 64-bit one. *)
Theorem C18_null_seek_cases :
  forall (e : env) (s : FileNull) (pos : seek_from),
    is64 e = true -> null_wf e s -> call_ok (CSeek pos) ->
    let base := match pos with SeekStart _ => 0 | SeekEnd _ => used_space s | SeekCurrent _ => pointer s end in
    let off := match pos with SeekStart n | SeekEnd n | SeekCurrent n => n end in
    (0 <= off -> base + off < 2 ^ 64 -> null_seek e s pos = (Ok tt, mkNull (base + off) (used_space s))) /\
    (off < 0 -> 0 <= base + off -> ovf e = false -> null_seek e s pos = (Ok tt, mkNull (base + off) (used_space s))) /\
    (off < 0 -> 0 <= base + off -> ovf e = true -> fst (null_seek e s pos) = Panic) /\
    (off < 0 -> base + off < 0 -> null_seek e s pos = (Ok tt, mkNull (2 ^ 64 + (base + off)) (used_space s))).
Proof. exact null_seek_cases. Qed.
Print Assumptions C18_null_seek_cases.

(** Both constructors give an empty sink at its start. *)
Theorem C18_starts_empty :
  forall s, s = null_new \/ s = null_default ->
    pointer s = 0 /\ used_space s = 0 /\ null_tell s = (Ok 0, s).
Proof. intros s [-> | ->]; repeat split. Qed.
Print Assumptions C18_starts_empty.

(** C19.  [blank] blanks the bytes of read answers; every other answer must be equal. *)
Theorem C19_null_file_is_a_dry_run :
  forall (e : env) (cs : list call),
    is64 e = true -> Forall call_ok cs -> Forall (dry_ok e) cs ->
    let '(answers, m) := run_calls (call_on (mem_io e)) cs (mem_new true []) in
    let '(answers', n) := run_calls (call_on (null_io e)) cs null_new in
    (forall x, In x answers -> exists a, x = Ok a) ->
    answers' = map blank answers /\ pointer n = mem_pos m /\ used_space n = zlen (mem_data m).
Proof. exact dry_run_from_empty. Qed.
Print Assumptions C19_null_file_is_a_dry_run.

(** The exception: an empty write beyond the end, unless memory is extended by it (newer std). *)
Theorem C19_empty_write_refuted :
  let cs := [CSeek (SeekStart 5); CWrite []; CSize] in
  fst (run_calls (call_on (null_io pc)) cs null_new) = [Ok AUnit; Ok AUnit; Ok (ANum 5)] /\
  fst (run_calls (call_on (mem_io pc)) cs (mem_new true [])) = [Ok AUnit; Ok AUnit; Ok (ANum 0)].
Proof. exact (conj eq_refl eq_refl). Qed.
Print Assumptions C19_empty_write_refuted.

(** Concrete cases. *)
Definition pc_release : env := mkEnv false false false true false false.
Example back_debug : null_seek pc (mkNull 10 20) (SeekCurrent (-4)) = (Panic, mkNull 10 20).
Proof. reflexivity. Qed.
Example back_release : null_seek pc_release (mkNull 10 20) (SeekEnd (-4)) = (Ok tt, mkNull 16 20).
Proof. reflexivity. Qed.
Example before_start : null_seek pc (mkNull 10 20) (SeekCurrent (-11)) = (Ok tt, mkNull 18446744073709551615 20).
Proof. reflexivity. Qed.
Definition dry_sample : list call :=
  [CWrite [1; 2; 3]; CTell; CSeek (SeekStart 1); CRead 2; CSeek (SeekCurrent 4); CWrite [9]; CSize; CSeek (SeekEnd 0); CTell].
Example dry_sample_ok : Forall call_ok dry_sample /\ Forall (dry_ok pc) dry_sample.
Proof.
  split; repeat (apply Forall_cons || apply Forall_nil); cbn; try discriminate; try exact I; try lia;
    try (left; discriminate); try (right; lia); repeat constructor; unfold is_byte; lia.
Qed.
(** Where memory is extended by an empty write, the dry run covers it. *)
Example dry_empty_write :
  let newer := mkEnv false false true true true true in
  let cs := [CSeek (SeekStart 5); CWrite []; CSize] in
  Forall (dry_ok newer) cs /\ fst (run_calls (call_on (mem_io newer)) cs (mem_new true [])) = [Ok AUnit; Ok AUnit; Ok (ANum 5)].
Proof. split; [repeat constructor; now right|reflexivity]. Qed.
Example dry_sample_mem :
  run_calls (call_on (mem_io pc)) dry_sample (mem_new true []) =
  ([Ok AUnit; Ok (ANum 3); Ok AUnit; Ok (ABytes [2; 3]); Ok AUnit; Ok AUnit; Ok (ANum 8); Ok AUnit; Ok (ANum 8)],
   mkMem true [1; 2; 3; 0; 0; 0; 0; 9] 8).
Proof. reflexivity. Qed.
Example dry_sample_null :
  run_calls (call_on (null_io pc)) dry_sample null_new =
  ([Ok AUnit; Ok (ANum 3); Ok AUnit; Ok (ABytes [0; 0]); Ok AUnit; Ok AUnit; Ok (ANum 8); Ok AUnit; Ok (ANum 8)],
   mkNull 8 8).
Proof. reflexivity. Qed.
