(** C45, C67: threads calling [open_from_file]. *)
From Verif Require Import M_Base M_FileFile M_Context M_Profile M_Threads S_Threads P_Threads Props_Endian Props_Null Props_Profile.
Local Open Scope list_scope.

(** In every reachable state the finished calls, in the order in which they finished, have exactly the
    outcomes of running them one by one; each thread's calls are in its program's order; when the lock is free the state is the sequential one. *)
Theorem C45_linearizable :
  forall e w fs programs s, steps e w (start fs programs) s ->
    exists g0 fs0,
      one_by_one e w (calls_of (s_log s)) global_init fs = (outcomes_of (s_log s), g0, fs0) /\
      (s_held s = None -> s_global s = g0 /\ s_fs s = fs0) /\
      forall i, exists lost,
        programs i = calls_by i (s_log s) ++ current (s_threads s i) ++ t_todo (s_threads s i) ++ lost /\
        (lost = [] \/ died i (s_log s)).
Proof. exact linearizable. Qed.
Print Assumptions C45_linearizable.

Theorem C45_mutual_exclusion :
  forall e w fs programs s i j, steps e w (start fs programs) s ->
    t_phase (s_threads s i) <> Idle -> t_phase (s_threads s j) <> Idle -> i = j.
Proof. exact exclusive. Qed.
Print Assumptions C45_mutual_exclusion.

Theorem C45_context_never_changes :
  forall e w fs programs s, steps e w (start fs programs) s -> g_ctx (s_global s) = context_new None.
Proof. exact context_kept. Qed.
Print Assumptions C45_context_never_changes.

Theorem C45_after_a_panic_all_panic :
  forall e w fs programs s, steps e w (start fs programs) s ->
    forall i j x y, nth_error (outcomes_of (s_log s)) i = Some x -> nth_error (outcomes_of (s_log s)) j = Some y ->
      (i < j)%nat -> fst x = Panic -> y = (Panic, []).
Proof. exact log_after_panic. Qed.
Print Assumptions C45_after_a_panic_all_panic.

Theorem C45_no_deadlock :
  forall e w fs programs s i, steps e w (start fs programs) s ->
    (t_phase (s_threads s i) <> Idle \/ t_todo (s_threads s i) <> []) -> exists s', step e w s s'.
Proof. exact progress. Qed.
Print Assumptions C45_no_deadlock.

(** A call that panics, also one that finds the lock poisoned, may end its thread or leave it running. *)
Theorem C45_panics_kill_or_are_caught :
  forall e w s i c rest rest', rest' = rest \/ rest' = [] ->
    (s_held s = None -> g_poisoned (s_global s) = true -> s_threads s i = mkThread Idle (c :: rest) ->
     exists s', step e w s s' /\ s_threads s' i = mkThread Idle rest' /\ s_log s' = s_log s ++ [(i, c, (Panic, []))] /\ s_fs s' = s_fs s /\ s_held s' = None) /\
    (forall ev, s_threads s i = mkThread (Finished c (Panic, ev)) rest ->
     exists s', step e w s s' /\ s_threads s' i = mkThread Idle rest' /\ s_log s' = s_log s ++ [(i, c, (Panic, ev))] /\ s_held s' = None /\ g_poisoned (s_global s') = true).
Proof. exact panic_either. Qed.
Print Assumptions C45_panics_kill_or_are_caught.

(** C67 *)
Theorem C67_every_execution_is_finite :
  forall e w fs programs k n s, total_calls programs k -> steps_in e w n (start fs programs) s -> (n <= 4 * k)%nat.
Proof. exact bounded. Qed.
Print Assumptions C67_every_execution_is_finite.

(** When nothing can move any more, the lock is free and every call was made, except calls of a thread
    that a panic killed. *)
Theorem C67_every_call_completes :
  forall e w fs programs s, steps e w (start fs programs) s -> (forall s', ~ step e w s s') ->
    s_held s = None /\
    forall i, t_phase (s_threads s i) = Idle /\ t_todo (s_threads s i) = [] /\
      exists lost, programs i = calls_by i (s_log s) ++ lost /\ (lost = [] \/ died i (s_log s)).
Proof. exact finished. Qed.
Print Assumptions C67_every_call_completes.

Theorem C67_always_can_finish :
  forall e w fs programs k s, total_calls programs k -> steps e w (start fs programs) s ->
    exists s', steps e w s s' /\ forall s'', ~ step e w s' s''.
Proof. exact can_finish. Qed.
Print Assumptions C67_always_can_finish.

(** Thread 0 opens a good file, thread 1 one that panics, thread 0 the good one again. *)
Definition two_files : FileSystem :=
  mkFS (fun x => if Nat.eqb x 7 then Some shared else if Nat.eqb x 8 then Some huge_tag else None) (fun _ => true) (fun _ => true).
Definition good_call : ocall := mkCall 7%nat ModeRead today [].
Definition bad_call : ocall := mkCall 8%nat ModeRead today [].
Definition two_programs (i : nat) : list ocall :=
  match i with 0%nat => [good_call; good_call] | 1%nat => [bad_call; good_call] | _ => [] end.
Definition summary (o : outcome_of) : option nat := match fst o with Ok p => Some (p_tag_count p) | _ => None end.

Example C45_example : exists s,
  steps pc no_world (start two_files two_programs) s /\
  map (fun x => (fst (fst x), k_path (snd (fst x)), summary (snd x))) (s_log s) =
  [(0%nat, 7%nat, Some 2%nat); (1%nat, 8%nat, None); (0%nat, 7%nat, None)] /\
  calls_by 1 (s_log s) = [bad_call].
Proof.
  pose proof (Steps0 pc no_world (start two_files two_programs)) as H. unfold start in H at 2.
  eapply StepsS in H; [|eapply (SAcquire _ _ 0%nat); reflexivity].
  eapply StepsS in H; [|eapply (SOpen _ _ 0%nat); reflexivity].
  eapply StepsS in H; [|eapply (SRead _ _ 0%nat); reflexivity].
  eapply StepsS in H; [|eapply (SRelease _ _ 0%nat); [reflexivity|now left]].
  eapply StepsS in H; [|eapply (SAcquire _ _ 1%nat); [reflexivity|vm_compute; reflexivity]].
  eapply StepsS in H; [|eapply (SOpen _ _ 1%nat); reflexivity].
  eapply StepsS in H; [|eapply (SRead _ _ 1%nat); reflexivity].
  eapply StepsS in H; [|eapply (SRelease _ _ 1%nat); [reflexivity|right; split; [vm_compute; reflexivity|reflexivity]]].
  eapply StepsS in H; [|eapply (SPoisoned _ _ 0%nat); [reflexivity|vm_compute; reflexivity|now left]].
  eexists. split; [exact H|]. split; vm_compute; reflexivity.
Qed.

(** Four calls in all: at most sixteen steps. *)
Example C67_example : total_calls two_programs 4.
Proof. exists 2%nat. split; [|reflexivity]. intros [|[|i]] H; [lia..|reflexivity]. Qed.
