(** C107: what the typed transfers ask of their handler.  Every handler, whatever it answers. *)
From Coq Require Import ZArith Reals List.
From Flocq Require Import Core IEEE754.BinarySingleNaN.
From Verif Require Import M_Base M_F64 M_IO M_FileMem M_FileNull M_FileFile S_Bytes S_Talk P_Talk Props_Endian.
Import ListNotations.
Local Open Scope Z_scope.

(** C107.  Reading an integer is one read of its size, and no other call; what the handler answers is the answer ... *)
Theorem C107_integers_in :
  forall S (e : env) (h : IOHandler S) (I : S -> Prop) n rd, sane h I ->
    (n, rd) = (1%nat, read_u8 h) \/ (n, rd) = (2%nat, read_u16 e h) \/ (n, rd) = (4%nat, read_u32 e h) \/ (n, rd) = (8%nat, read_u64 e h) ->
    does h I (uint_in (feat_le e) n) rd.
Proof. exact (fun S => @uint_read S). Qed.
Print Assumptions C107_integers_in.

(** ... so for floats, fixed-point numbers ... *)
Theorem C107_numbers_in :
  forall S (e : env) (h : IOHandler S) (I : S -> Prop), sane h I ->
    does h I (float_in (feat_le e)) (read_f32 e h) /\ does h I (number_in (feat_le e) (ovf e)) (read_s15f16 e h).
Proof. exact (fun S e h I K => conj (float_read e h I K) (number_read e h I K)). Qed.
Print Assumptions C107_numbers_in.

(** ... and colours, which are three of them: the first failure, or undecodable number, ends the reading. *)
Theorem C107_colours_in :
  forall S (e : env) (h : IOHandler S) (I : S -> Prop), sane h I -> does h I (xyz_in (feat_le e) (ovf e)) (read_xyz e h).
Proof. exact (fun S => @xyz_read S). Qed.
Print Assumptions C107_colours_in.

(** Writing an integer or float is one write ... *)
Theorem C107_integers_out :
  forall S (e : env) (h : IOHandler S) n v wr,
    (n, wr) = (1%nat, write_u8 h) \/ (n, wr) = (2%nat, write_u16 e h) \/ (n, wr) = (4%nat, write_u32 e h) \/ (n, wr) = (8%nat, write_u64 e h) ->
    is_uint n v -> does h always (uint_out (feat_le e) n v) (wr v).
Proof. exact (fun S => @uint_write S). Qed.
Print Assumptions C107_integers_out.
Theorem C107_floats_out :
  forall S (e : env) (h : IOHandler S) x, does h always (uint_out (feat_le e) 4 (bits_of_f32 x)) (write_f32 e h x).
Proof. exact (fun S => @float_write S). Qed.
Print Assumptions C107_floats_out.

(** ... of a fixed-point number too, of a colour three. *)
Theorem C107_numbers_out :
  forall S (e : env) (h : IOHandler S) x, exists w, word_for x w /\ does h always (uint_out (feat_le e) 4 (w mod 2 ^ 32)) (write_s15f16 e h x).
Proof. exact (fun S => @number_write S). Qed.
Print Assumptions C107_numbers_out.
Theorem C107_colours_out :
  forall S (e : env) (h : IOHandler S) v, exists x y z,
    word_for (xyz_X v) x /\ word_for (xyz_Y v) y /\ word_for (xyz_Z v) z /\ does h always (xyz_out (feat_le e) x y z) (write_xyz e h v).
Proof. exact (fun S => @xyz_write S). Qed.
Print Assumptions C107_colours_out.

(** The length is asked for with two tells and two seeks, in this order. *)
Theorem C107_size : forall S (h : IOHandler S), does h always size_of (reported_size h).
Proof. exact (fun S => @size_talk S). Qed.
Print Assumptions C107_size.

(** The crate's own handlers are sane as long as they hold bytes. *)
Theorem C107_handlers :
  forall e, sane (mem_io e) (fun s => are_bytes (mem_data s)) /\ sane (file_io e) (fun s => are_bytes (f_data s)) /\ sane (null_io e) always.
Proof. exact (fun e => conj (mem_sane e) (conj (file_sane e) (null_sane e))). Qed.
Print Assumptions C107_handlers.

(** A handler that keeps a record of the calls (latest first): tell fails except the first time, seeking fails if [bad]. *)
Definition grumpy (bad : bool) : IOHandler (list (option seek_from)) :=
  mkIO (fun s b => (Err OsError, s, b)) (fun s p => (if bad && (2 <? length s)%nat then Err InvalidInput else Ok tt, Some p :: s))
       (fun s => (match s with [] => Ok 5 | _ => Err OsError end, None :: s)) (fun s _ => (Err OsError, s)).
Example C107_examples :
  reported_size (grumpy false) [] = (Err OsError, [Some (SeekStart 5); None; Some (SeekEnd 0); None]) /\
  reported_size (grumpy true) [] = (Err InvalidInput, [Some (SeekStart 5); None; Some (SeekEnd 0); None]) /\
  read_xyz pc (mem_io pc) (mkMem true [0; 1; 0; 0; 0; 2; 0; 0] 0) = (Err UnexpectedEof, mkMem true [0; 1; 0; 0; 0; 2; 0; 0] 8) /\
  read_xyz pc (mem_io pc) (mkMem true [128; 0; 0; 0; 0; 2; 0; 0; 0; 3; 0; 0] 0) = (Panic, mkMem true [128; 0; 0; 0; 0; 2; 0; 0; 0; 3; 0; 0] 4).
Proof. repeat split; vm_compute; reflexivity. Qed.
