(** Model of threads calling [Profile::open_from_file]: /repo/src/types/profile.rs:83-108 together with
    the mutex of /repo/src/state/context.rs:40.  A call is four steps that other threads may interleave
    with: taking the lock, opening (or truncating) the file, reading the header, releasing the lock.
    Simplification: reading the header is one step; the file system is touched by these threads only. *)
From Verif Require Import M_Base M_FileFile M_Header M_Context M_Profile.
Local Open Scope list_scope.

(** The arguments of one call, the clock it will see and the schedule the OS has for its reads.
    Cf. profile.rs:83-86. *)
Record ocall := mkCall { k_path : path; k_mode : AccessMode; k_now : NaiveDateTime; k_sched : list os_event }.
(** profile.rs:86. *)
Definition outcome_of : Type := (res (Profile File) * list event)%type.

(** profile.rs:87-109. *)
Inductive phase :=
| Idle                                   (* before [lock()], or after the call *)
| Locked (c : ocall)                     (* profile.rs:87, guard held *)
| Opened (c : ocall)                     (* profile.rs:101-106 done *)
| Finished (c : ocall) (o : outcome_of). (* result computed (or unwinding), guard not yet dropped.
    Cf. one caller of profile.rs:83-89. *)
Record thread := mkThread { t_phase : phase; t_todo : list ocall }.

(** profile.rs:83-108, context.rs:40. *)
Record system := mkSys {
  s_held : option nat;             (* which thread holds the mutex *)
  s_global : Global;               (* what the mutex protects, and whether it is poisoned *)
  s_fs : FileSystem;
  s_threads : nat -> thread;
  s_log : list (nat * ocall * outcome_of)   (* finished calls, oldest first *)
}.

(** Bookkeeping for the callers of profile.rs:83-89. *)
Definition update (f : nat -> thread) (i : nat) (t : thread) : nat -> thread :=
  fun j => if Nat.eqb j i then t else f j.

(** A file handle on the current content.
    Cf. profile.rs:101,103. *)
Definition handle (m : AccessMode) (d : list Z) (sched : list os_event) : File :=
  match m with ModeRead => mkFile d 0 true false sched | ModeWrite => mkFile d 0 false true sched end.
(** profile.rs:104. *)
Definition is_write_mode (m : AccessMode) : bool := match m with ModeRead => false | ModeWrite => true end.

(** profile.rs:101-106: [File::open] or [File::create]. *)
Definition open_step (fs : FileSystem) (c : ocall) : option io_err * FileSystem :=
  match k_mode c with
  | ModeRead => match fs_open fs (k_path c) (k_sched c) with
                | Ok _ => (None, fs) | Err er => (Some er, fs) | Panic => (Some OsError, fs) end
  | ModeWrite => match fs_create fs (k_path c) (k_sched c) with
                 | (Ok _, fs1) => (None, fs1) | (Err er, fs1) => (Some er, fs1) | (Panic, fs1) => (Some OsError, fs1) end
  end.

(** What a thread does after a call that panicked: it dies, unless someone catches the panic.
    Cf. profile.rs:87 ([unwrap]). *)
Definition may_follow (r : res (Profile File)) (todo todo' : list ocall) : Prop :=
  todo' = todo \/ (r = Panic /\ todo' = []).

(** profile.rs:83-108. *)
Inductive step (e : env) (w : world) : system -> system -> Prop :=
| SAcquire i c rest g fs th log :
    th i = mkThread Idle (c :: rest) -> g_poisoned g = false ->
    step e w (mkSys None g fs th log) (mkSys (Some i) g fs (update th i (mkThread (Locked c) rest)) log)
| SPoisoned i c rest rest' g fs th log :
    th i = mkThread Idle (c :: rest) -> g_poisoned g = true -> may_follow Panic rest rest' ->
    step e w (mkSys None g fs th log)
             (mkSys None g fs (update th i (mkThread Idle rest')) (log ++ [(i, c, (Panic, []))]))
| SOpen i c rest h g fs th log fs' :
    th i = mkThread (Locked c) rest -> open_step fs c = (None, fs') ->
    step e w (mkSys h g fs th log) (mkSys h g fs' (update th i (mkThread (Opened c) rest)) log)
| SOpenFails i c rest h g fs th log er fs' :
    th i = mkThread (Locked c) rest -> open_step fs c = (Some er, fs') ->
    step e w (mkSys h g fs th log) (mkSys h g fs' (update th i (mkThread (Finished c (Err er, [])) rest)) log)
| SRead i c rest h g fs th log d :
    th i = mkThread (Opened c) rest -> fs_content fs (k_path c) = Some d ->
    let o := finish_open e w (g_ctx g) fs (k_path c)
               (with_mode (profile_new (k_now c)) (handle (k_mode c) d (k_sched c)) (is_write_mode (k_mode c))) in
    step e w (mkSys h g fs th log)
             (mkSys h (mkGlobal (or_ctx o) (g_poisoned g)) (or_fs o)
                    (update th i (mkThread (Finished c (or_res o, or_events o)) rest)) log)
| SRelease i c r ev rest rest' h g fs th log :
    th i = mkThread (Finished c (r, ev)) rest -> may_follow r rest rest' ->
    step e w (mkSys h g fs th log)
             (mkSys None (mkGlobal (g_ctx g) (g_poisoned g || match r with Panic => true | _ => false end)%bool) fs
                    (update th i (mkThread Idle rest')) (log ++ [(i, c, (r, ev))])).

(** Any number of steps of profile.rs:83-108 calls. *)
Inductive steps (e : env) (w : world) : system -> system -> Prop :=
| Steps0 s : steps e w s s
| StepsS s s' s'' : steps e w s s' -> step e w s' s'' -> steps e w s s''.

(** Any number of threads, each about to make its calls; nothing locked.
    Cf. before any call of profile.rs:83. *)
Definition start (fs : FileSystem) (programs : nat -> list ocall) : system :=
  mkSys None global_init fs (fun i => mkThread Idle (programs i)) [].
