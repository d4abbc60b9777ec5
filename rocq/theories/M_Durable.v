(** Model of /repo/src/io/file_file.rs:15-19 ([close]) together with what a crash may leave on disk. *)
From Verif Require Import M_Base M_IO M_FileMem M_FileFile.

(** An open file plus the versions of its content (oldest first) that a crash could still bring back:
    everything the content has been since the last successful [fdatasync].
    Cf. /repo/src/io/file_file.rs:5,15-19. *)
Record DFile := mkD { d_file : File; d_versions : list (list Z) }.

(** Freshly opened on content that is on disk.
    Cf. /repo/src/types/profile.rs:101,103. *)
Definition d_open (f : File) : DFile := mkD f [f_data f].

(** Record the current content as a version that may reach the disk.
    Cf. after /repo/src/io/file_file.rs:25-27. *)
Definition d_note (s : DFile) (f : File) : DFile := mkD f (d_versions s ++ [f_data f]).

(** All [IOHandler] calls go to the page cache.  The content a partial write passes through on its way
    is not listed separately: a crash mixes versions byte by byte, see [crash_content].
    Cf. /repo/src/io/file_file.rs:6-13,21-27. *)
Definition d_io (e : env) : IOHandler DFile :=
  mkIO (fun s buf => let '(r, f, b) := file_read (d_file s) buf in (r, mkD f (d_versions s), b))
       (fun s pos => let '(r, f) := file_seek (d_file s) pos in (r, mkD f (d_versions s)))
       (fun s => let '(r, f) := file_tell e (d_file s) in (r, mkD f (d_versions s)))
       (fun s buf => let '(r, f) := file_write (d_file s) buf in (r, d_note s f)).

(** fdatasync(2), retried on EINTR by std: everything up to now is on disk, or an error. *)
Fixpoint sync_data (sched : list os_event) (s : DFile) : res unit * DFile :=
  match sched with
  | EvIntr :: r => sync_data r s
  | EvFail :: _ => (Err OsError, s)
  | _ => (Ok tt, mkD (d_file s) [f_data (d_file s)])
  end.

(** file_file.rs:15-19 [close]: [sync_data()?], drop, [Ok(())]. *)
Definition file_close (s : DFile) : res unit * DFile := sync_data (f_sched (d_file s)) s.

(** What may be on disk after a crash: the length of some version, and at each offset the byte of some
    version (0 past a version's end).
    Cf. the state before or after /repo/src/io/file_file.rs:15-19. *)
Definition crash_content (s : DFile) (c : list Z) : Prop :=
  (exists v, In v (d_versions s) /\ length c = length v) /\
  (forall i, (i < length c)%nat -> exists v, In v (d_versions s) /\ nth i c 0 = nth i v 0).
