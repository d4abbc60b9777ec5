(** Specification: the sequential execution that concurrent opens must be equivalent to. *)
From Verif Require Import M_Base M_FileFile M_Context M_Profile M_Threads.
Local Open Scope list_scope.

(** One call after another, on one thread. *)
Fixpoint one_by_one (e : env) (w : world) (calls : list ocall) (g : Global) (fs : FileSystem)
  : list outcome_of * Global * FileSystem :=
  match calls with
  | [] => ([], g, fs)
  | c :: r =>
      let '(x, g1, ev, fs1) := open_from_file e w (k_now c) (k_sched c) g fs (k_path c) (k_mode c) in
      let '(xs, g2, fs2) := one_by_one e w r g1 fs1 in
      ((x, ev) :: xs, g2, fs2)
  end.

Definition calls_of (log : list (nat * ocall * outcome_of)) : list ocall := map (fun x => snd (fst x)) log.
Definition outcomes_of (log : list (nat * ocall * outcome_of)) : list outcome_of := map snd log.
Definition calls_by (i : nat) (log : list (nat * ocall * outcome_of)) : list ocall :=
  calls_of (filter (fun x => Nat.eqb (fst (fst x)) i) log).
(** The call a thread is in the middle of. *)
Definition current (t : thread) : list ocall :=
  match t_phase t with Idle => [] | Locked c | Opened c | Finished c _ => [c] end.
(** Some call of thread [i] panicked (and so may have killed it). *)
Definition died (i : nat) (log : list (nat * ocall * outcome_of)) : Prop := exists c ev, In (i, c, (Panic, ev)) log.
(** An execution of exactly [n] steps. *)
Inductive steps_in (e : env) (w : world) : nat -> system -> system -> Prop :=
| In0 s : steps_in e w 0 s s
| InS n s s' s'' : steps_in e w n s s' -> step e w s' s'' -> steps_in e w (S n) s s''.
(** All threads together have [n] calls to make. *)
Definition total_calls (programs : nat -> list ocall) (n : nat) : Prop :=
  exists m, (forall i, (m <= i)%nat -> programs i = []) /\
            n = list_sum (map (fun i => List.length (programs i)) (seq 0 m)).
