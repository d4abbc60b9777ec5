(** C112: opening a profile step by step - every call on the source, every decision, every result. *)
From Coq Require Import String.
From Verif Require Import M_Base M_IO M_FileMem M_FileNull M_FileFile M_Signature M_Header M_Context M_Profile S_Bytes S_Header S_Profile S_Talk S_Opening S_Conditions
  P_Opening Props_Endian Props_Null Props_Header Props_Profile.
Local Open Scope list_scope.
Local Open Scope Z_scope.

(** Whatever the source answers, reading a profile from it is this conversation, with these results. *)
Theorem C112_conversation :
  forall (S : Type) e w (h : IOHandler S) (I : S -> Prop) c now, honest e h I ->
    does h I (opening (feat_le e) (ovf e) w c) (fun s =>
      let o := read_header_thr e w h c (with_mode (profile_new now) s false) in (Ok o, match p_io (o_profile o) with Some s' => s' | None => s end)).
Proof. exact (fun S => @opening_follows S). Qed.
Print Assumptions C112_conversation.

(** It has at most 106 calls, and none of them is a write. *)
Theorem C112_calls : forall (S : Type) little checks w c, calls_only_reads 106 (opening (S := S) little checks w c).
Proof. exact (fun S => @opening_calls S). Qed.
Print Assumptions C112_calls.

(** The crate's own handlers are such sources. *)
Theorem C112_handlers :
  forall e, honest e (mem_io e) (fun s => are_bytes (mem_data s)) /\ honest e (file_io e) (fun s => are_bytes (f_data s)) /\ honest e (null_io e) (null_wf e).
Proof. exact (fun e => conj (mem_honest e) (conj (file_honest e) (null_honest e))). Qed.
Print Assumptions C112_handlers.

(** A memory file that counts its calls, and whose call number [bad] fails. *)
Definition counting (bad : nat) : IOHandler (nat * FileMem) := mkIO
  (fun s buf => if Nat.eqb (fst s) bad then (Err OsError, (Datatypes.S (fst s), snd s), buf)
                else let '(r, m, b) := mem_read pc (snd s) buf in (r, (Datatypes.S (fst s), m), b))
  (fun s p => if Nat.eqb (fst s) bad then (Err OsError, (Datatypes.S (fst s), snd s))
              else let '(r, m) := mem_seek (snd s) p in (r, (Datatypes.S (fst s), m)))
  (fun s => if Nat.eqb (fst s) bad then (Err OsError, (Datatypes.S (fst s), snd s))
            else let '(r, m) := mem_tell pc (snd s) in (r, (Datatypes.S (fst s), m)))
  (fun s b => let '(r, m) := mem_write pc (snd s) b in (r, (Datatypes.S (fst s), m))).
Definition tried (bad : nat) (d : list Z) : res unit * option nat :=
  let o := read_header_thr pc no_world (counting bad) (context_new None) (with_mode (profile_new today) (O, mkMem true d 0) false) in
  (o_res o, option_map fst (p_io (o_profile o))).
(** A good profile with two entries: eight calls.  A call that fails is the last one - except when the length cannot be told. *)
Example C112_counts :
  tried 999 shared = (Ok tt, Some 8%nat) /\ map (fun n => tried n shared) (seq 0 8) =
  [(Err OsError, Some 1%nat); (Err OsError, Some 2%nat); (Err OsError, Some 3%nat); (Err OsError, Some 5%nat);
   (Err OsError, Some 5%nat); (Err OsError, Some 6%nat); (Err OsError, Some 7%nat); (Err OsError, Some 8%nat)] /\
  tried 999 (0 :: shared) = (Err InvalidData, Some 1%nat) /\ tried 999 huge_tag = (Panic, Some 7%nat).
Proof. vm_compute. repeat split. Qed.
