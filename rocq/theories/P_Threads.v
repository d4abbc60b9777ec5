(** Proofs about threads opening profiles (C45). *)
From Verif Require Import M_Base M_FileFile M_Header M_Context M_Profile S_Profile M_Threads S_Threads P_Open3.
Local Open Scope list_scope.
#[local] Arguments finish_open : simpl never.
#[local] Arguments open_from_file : simpl never.

Lemma open_fails e w c g fs er fs' : g_poisoned g = false -> open_step fs c = (Some er, fs') ->
  open_from_file e w (k_now c) (k_sched c) g fs (k_path c) (k_mode c) = (Err er, g, [], fs').
Proof.
  intros P H. destruct g as [cx po]; cbn in P; subst po. unfold open_step in H. unfold open_from_file, open_from_file_thr. cbn [g_poisoned g_ctx].
  destruct (k_mode c).
  - destruct (fs_open fs (k_path c) (k_sched c)) eqn:O; try discriminate; injection H as <- <-; cbn; try reflexivity.
    exfalso. unfold fs_open in O. destruct (fs_content fs (k_path c)); [destruct (fs_may_read fs (k_path c))|]; discriminate.
  - unfold fs_create in *. destruct (fs_may_create fs (k_path c)); [discriminate|]. injection H as <- <-. reflexivity.
Qed.

Lemma open_goes_on e w c g fs fs' : g_poisoned g = false -> open_step fs c = (None, fs') ->
  exists d, fs_content fs' (k_path c) = Some d /\
    let o := finish_open e w (g_ctx g) fs' (k_path c)
               (with_mode (profile_new (k_now c)) (handle (k_mode c) d (k_sched c)) (is_write_mode (k_mode c))) in
    open_from_file e w (k_now c) (k_sched c) g fs (k_path c) (k_mode c) =
    (or_res o, mkGlobal (or_ctx o) (match or_res o with Panic => true | _ => false end), or_events o, or_fs o).
Proof.
  intros P H. unfold open_step in H. unfold open_from_file, open_from_file_thr. rewrite P.
  destruct (k_mode c).
  - unfold fs_open in *. destruct (fs_content fs (k_path c)) as [d|] eqn:C; [|discriminate].
    destruct (fs_may_read fs (k_path c)); [|discriminate]. injection H as <-. exists d. split; [exact C|reflexivity].
  - unfold fs_create in *. destruct (fs_may_create fs (k_path c)); [|discriminate]. injection H as <-.
    exists []. split; [unfold fs_set; cbn; now rewrite Nat.eqb_refl|reflexivity].
Qed.

Lemma one_by_one_snoc e w l c g fs : 
  one_by_one e w (l ++ [c]) g fs =
  let '(xs, g1, fs1) := one_by_one e w l g fs in
  let '(x, g2, ev, fs2) := open_from_file e w (k_now c) (k_sched c) g1 fs1 (k_path c) (k_mode c) in
  (xs ++ [(x, ev)], g2, fs2).
Proof.
  revert g fs. induction l as [|a l IH]; intros g fs.
  - cbn [app one_by_one]. destruct (open_from_file _ _ _ _ _ _ _ _) as [[[x g2] ev] fs2]. reflexivity.
  - cbn [app one_by_one]. destruct (open_from_file e w (k_now a) _ _ _ _ _) as [[[x g2] ev] fs2].
    rewrite IH. destruct (one_by_one e w l g2 fs2) as [[xs g3] fs3].
    destruct (open_from_file _ _ _ _ _ _ _ _) as [[[y g4] ev4] fs4]. reflexivity.
Qed.

(** The state of the one thread that may be inside, against the sequential state [g0], [fs0]. *)
Definition inside_ok (e : env) (w : world) (g0 : Global) (fs0 : FileSystem) (s : system) (i : nat) : Prop :=
  g_poisoned g0 = false /\
  match t_phase (s_threads s i) with
  | Idle => False
  | Locked c => s_global s = g0 /\ s_fs s = fs0
  | Opened c => s_global s = g0 /\ open_step fs0 c = (None, s_fs s)
  | Finished c (r, ev) => g_poisoned (s_global s) = false /\
      open_from_file e w (k_now c) (k_sched c) g0 fs0 (k_path c) (k_mode c) =
      (r, mkGlobal (g_ctx (s_global s)) (match r with Panic => true | _ => false end), ev, s_fs s)
  end.

Definition good (e : env) (w : world) (fs : FileSystem) (programs : nat -> list ocall) (s : system) : Prop :=
  exists g0 fs0,
    one_by_one e w (calls_of (s_log s)) global_init fs = (outcomes_of (s_log s), g0, fs0) /\
    match s_held s with
    | None => s_global s = g0 /\ s_fs s = fs0 /\ forall j, t_phase (s_threads s j) = Idle
    | Some i => inside_ok e w g0 fs0 s i /\ forall j, j <> i -> t_phase (s_threads s j) = Idle
    end /\
    forall j, exists lost, programs j = calls_by j (s_log s) ++ current (s_threads s j) ++ t_todo (s_threads s j) ++ lost /\
      (lost = [] \/ died j (s_log s)).

Lemma update_same f i t : update f i t i = t.
Proof. unfold update. now rewrite Nat.eqb_refl. Qed.
Lemma update_other f i t j : j <> i -> update f i t j = f j.
Proof. intros H. unfold update. apply Nat.eqb_neq in H. now rewrite H. Qed.

Lemma calls_snoc i c o log : calls_of (log ++ [(i, c, o)]) = calls_of log ++ [c].
Proof. unfold calls_of. now rewrite map_app. Qed.
Lemma outcomes_snoc i c o log : outcomes_of (log ++ [(i, c, o)]) = outcomes_of log ++ [o].
Proof. unfold outcomes_of. now rewrite map_app. Qed.
Lemma calls_by_snoc i c o log j : calls_by j (log ++ [(i, c, o)]) = calls_by j log ++ (if Nat.eqb i j then [c] else []).
Proof.
  unfold calls_by. rewrite filter_app. cbn [filter fst]. destruct (Nat.eqb i j); [apply calls_snoc|].
  now rewrite !app_nil_r.
Qed.

(** Program order is kept by any step that moves calls along. *)
Lemma follow_program r rest rest' : may_follow r rest rest' -> exists lost, rest = rest' ++ lost /\ (lost = [] \/ r = Panic).
Proof.
  intros [->|(-> & ->)]; [exists []; split; [symmetry; apply app_nil_r|now left]|exists rest; split; [reflexivity|now right]].
Qed.
Lemma died_more i log l : died i log -> died i (log ++ l).
Proof. intros (c & ev & H). exists c, ev. apply in_or_app. now left. Qed.
Lemma died_last i c ev log : died i (log ++ [(i, c, (Panic, ev))]).
Proof. exists c, ev. apply in_or_app. right. now left. Qed.

(** The thread that is not idle is the holder. *)
Lemma holder e w fs P s i : good e w fs P s -> t_phase (s_threads s i) <> Idle -> s_held s = Some i.
Proof.
  intros (g0 & fs0 & _ & H & _) N. destruct (s_held s) as [j|].
  - destruct (Nat.eq_dec i j) as [->|D]; [reflexivity|]. destruct H as (_ & H). now specialize (H i D).
  - destruct H as (_ & _ & H). now specialize (H i).
Qed.

Lemma step_good e w fs P s s' : good e w fs P s -> step e w s s' -> good e w fs P s'.
Proof.
  intros G St. pose proof (holder e w fs P s) as HO.
  destruct St as [i c rest g f th log T PF|i c rest rest' g f th log T PF MF|i c rest h g f th log f' T O
                 |i c rest h g f th log er f' T O|i c rest h g f th log d T C o|i c r ev rest rest' h g f th log T MF];
    try (assert (HH : h = Some i) by (apply (HO i G); cbn [s_threads]; rewrite T; discriminate); subst h);
    destruct G as (g0 & fs0 & R & IN & PR); cbn [s_held s_global s_fs s_threads s_log] in *; clear HO.
  - destruct IN as (-> & -> & IDLE). exists g0, fs0. cbn [s_held s_log s_threads]. split; [exact R|]. split.
    + split; [|intros j Hj; rewrite update_other by exact Hj; apply IDLE].
      split; [exact PF|]. cbn [s_threads]. rewrite update_same. split; reflexivity.
    + intros j. destruct (PR j) as (lost & E & DI). exists lost. split; [|exact DI]. destruct (Nat.eq_dec j i) as [->|D].
      * rewrite update_same. rewrite T in E. exact E.
      * rewrite update_other by exact D. exact E.
  - destruct IN as (-> & -> & IDLE). exists g0, fs0. cbn [s_held s_log s_threads s_global s_fs]. split.
    + rewrite calls_snoc, outcomes_snoc, one_by_one_snoc, R. unfold open_from_file. now rewrite PF.
    + split.
      * split; [reflexivity|]. split; [reflexivity|]. intros j. destruct (Nat.eq_dec j i) as [->|D]; [now rewrite update_same|].
        rewrite update_other by exact D. apply IDLE.
      * intros j. destruct (PR j) as (lost & E & DI). rewrite calls_by_snoc. destruct (Nat.eq_dec j i) as [->|D].
        -- rewrite update_same, Nat.eqb_refl. rewrite T in E. destruct (follow_program _ _ _ MF) as (l & -> & LP).
           exists (l ++ lost). split; [rewrite E; cbn; now rewrite <- !app_assoc|].
           destruct DI as [->|DI]; [|right; now apply died_more]. rewrite app_nil_r.
           destruct LP as [->|LP]; [now left|right]. rewrite ?LP. apply died_last.
        -- rewrite update_other by exact D. apply Nat.eqb_neq in D. rewrite Nat.eqb_sym in D. rewrite D, app_nil_r.
           exists lost. split; [exact E|]. destruct DI as [DI|DI]; [now left|right; now apply died_more].
  - destruct IN as ((PF & IN) & IDLE). cbn [s_threads s_global s_fs] in IN. rewrite T in IN. destruct IN as (-> & ->).
    exists g0, fs0. cbn [s_held s_log s_threads]. split; [exact R|]. split.
    + split; [|intros j Hj; rewrite update_other by exact Hj; now apply IDLE].
      split; [exact PF|]. cbn [s_threads s_global s_fs]. rewrite update_same. cbn. auto.
    + intros j. destruct (PR j) as (lost & E & DI). exists lost. split; [|exact DI]. destruct (Nat.eq_dec j i) as [->|D].
      * rewrite update_same. rewrite T in E. exact E.
      * rewrite update_other by exact D. exact E.
  - destruct IN as ((PF & IN) & IDLE). cbn [s_threads s_global s_fs] in IN. rewrite T in IN. destruct IN as (-> & ->).
    exists g0, fs0. cbn [s_held s_log s_threads]. split; [exact R|]. split.
    + split; [|intros j Hj; rewrite update_other by exact Hj; now apply IDLE].
      split; [exact PF|]. cbn [s_threads s_global s_fs]. rewrite update_same. cbn. split; [exact PF|].
      rewrite (open_fails e w c g0 fs0 er f' PF O). destruct g0; cbn in PF; subst. reflexivity.
    + intros j. destruct (PR j) as (lost & E & DI). exists lost. split; [|exact DI]. destruct (Nat.eq_dec j i) as [->|D].
      * rewrite update_same. rewrite T in E. exact E.
      * rewrite update_other by exact D. exact E.
  - destruct IN as ((PF & IN) & IDLE). cbn [s_threads s_global s_fs] in IN. rewrite T in IN. destruct IN as (-> & IN).
    destruct (open_goes_on e w c g0 fs0 f PF IN) as (d' & D' & OF). rewrite C in D'. injection D' as <-.
    exists g0, fs0. cbn [s_held s_log s_threads]. split; [exact R|]. split.
    + split; [|intros j Hj; rewrite update_other by exact Hj; now apply IDLE].
      split; [exact PF|]. cbn [s_threads s_global s_fs]. rewrite update_same. cbn [t_phase g_poisoned g_ctx]. split; [exact PF|].
      exact OF.
    + intros j. destruct (PR j) as (lost & E & DI). exists lost. split; [|exact DI]. destruct (Nat.eq_dec j i) as [->|D].
      * rewrite update_same. rewrite T in E. exact E.
      * rewrite update_other by exact D. exact E.
  - destruct IN as ((PF & IN) & IDLE). cbn [s_threads s_global s_fs] in IN. rewrite T in IN. cbn [t_phase] in IN.
    destruct IN as (PG & OF). rewrite PG. cbn [orb].
    exists (mkGlobal (g_ctx g) (match r with Panic => true | _ => false end)), f.
    cbn [s_held s_log s_threads s_global s_fs]. split.
    + now rewrite calls_snoc, outcomes_snoc, one_by_one_snoc, R, OF.
    + split.
      * split; [reflexivity|]. split; [reflexivity|]. intros j. destruct (Nat.eq_dec j i) as [->|D]; [now rewrite update_same|].
        rewrite update_other by exact D. now apply IDLE.
      * intros j. destruct (PR j) as (lost & E & DI). rewrite calls_by_snoc. destruct (Nat.eq_dec j i) as [->|D].
        -- rewrite update_same, Nat.eqb_refl. rewrite T in E. destruct (follow_program _ _ _ MF) as (l & -> & LP).
           exists (l ++ lost). split; [rewrite E; cbn; now rewrite <- !app_assoc|].
           destruct DI as [->|DI]; [|right; now apply died_more]. rewrite app_nil_r.
           destruct LP as [->|LP]; [now left|right]. rewrite ?LP. apply died_last.
        -- rewrite update_other by exact D. apply Nat.eqb_neq in D. rewrite Nat.eqb_sym in D. rewrite D, app_nil_r.
           exists lost. split; [exact E|]. destruct DI as [DI|DI]; [now left|right; now apply died_more].
Qed.

Lemma start_good e w fs P : good e w fs P (start fs P).
Proof.
  exists global_init, fs. split; [reflexivity|]. split; [repeat split|].
  intros j. exists []. cbn. rewrite app_nil_r. auto.
Qed.

Lemma reachable_good e w fs P s : steps e w (start fs P) s -> good e w fs P s.
Proof.
  remember (start fs P) as s0 eqn:E. intros H. induction H as [s|s s' s'' H IH St].
  - subst. apply start_good.
  - eapply step_good; [now apply IH|exact St].
Qed.

Lemma linearizable e w fs P s : steps e w (start fs P) s ->
  exists g0 fs0,
    one_by_one e w (calls_of (s_log s)) global_init fs = (outcomes_of (s_log s), g0, fs0) /\
    (s_held s = None -> s_global s = g0 /\ s_fs s = fs0) /\
    forall j, exists lost, P j = calls_by j (s_log s) ++ current (s_threads s j) ++ t_todo (s_threads s j) ++ lost /\
      (lost = [] \/ died j (s_log s)).
Proof.
  intros H. destruct (reachable_good e w fs P s H) as (g0 & fs0 & R & IN & PR). exists g0, fs0.
  split; [exact R|]. split; [|exact PR]. intros HN. rewrite HN in IN. tauto.
Qed.

Lemma exclusive e w fs P s i j : steps e w (start fs P) s ->
  t_phase (s_threads s i) <> Idle -> t_phase (s_threads s j) <> Idle -> i = j.
Proof.
  intros H Hi Hj. pose proof (reachable_good e w fs P s H) as G.
  pose proof (holder e w fs P s i G Hi). pose proof (holder e w fs P s j G Hj). congruence.
Qed.

Lemma run_past e w fs l : exists past g fs', one_by_one e w l global_init fs = (rev past, g, fs') /\
  past_calls e w (map fst past) g fs'.
Proof.
  induction l as [|c l IH] using rev_ind.
  - exists [], global_init, fs. split; [reflexivity|]. constructor.
  - destruct IH as (past & g & fs' & E & PC). rewrite one_by_one_snoc, E.
    destruct (open_from_file e w (k_now c) (k_sched c) g fs' (k_path c) (k_mode c)) as [[[x g2] ev] fs2] eqn:O.
    exists ((x, ev) :: past), g2, fs2. split; [reflexivity|]. cbn [map fst]. eapply PCCall; eassumption.
Qed.

Lemma context_kept e w fs P s : steps e w (start fs P) s -> g_ctx (s_global s) = context_new None.
Proof.
  intros H. destruct (reachable_good e w fs P s H) as (g0 & fs0 & R & IN & _).
  destruct (run_past e w fs (calls_of (s_log s))) as (past & g & fs' & E & PC).
  rewrite R in E. injection E as _ <- <-. destruct (past_state e w _ _ _ PC) as (CX & PO).
  destruct (s_held s) as [i|]; [|destruct IN as (-> & _); exact CX].
  destruct IN as ((PF & IN) & _). destruct (t_phase (s_threads s i)) as [|c|c|c [r ev]]; [contradiction| | |].
  - destruct IN as (-> & _). exact CX.
  - destruct IN as (-> & _). exact CX.
  - destruct IN as (_ & OF).
    assert (PC' := PCCall e w _ _ _ _ _ _ _ _ _ _ _ PC OF). exact (proj1 (past_state e w _ _ _ PC')).
Qed.

(** Nobody is ever stuck. *)
Lemma progress e w fs P s i : steps e w (start fs P) s ->
  (t_phase (s_threads s i) <> Idle \/ t_todo (s_threads s i) <> []) -> exists s', step e w s s'.
Proof.
  intros H HI. pose proof (reachable_good e w fs P s H) as G. destruct G as (g0 & fs0 & R & IN & PR).
  destruct s as [h g f th log]. cbn [s_held s_threads s_global s_fs s_log] in *.
  assert (RUN : forall k, inside_ok e w g0 fs0 (mkSys h g f th log) k -> exists s', step e w (mkSys h g f th log) s').
  { intros k (PF & K). cbn [s_threads s_global s_fs] in K. destruct (th k) as [ph rest] eqn:T. cbn [t_phase] in K.
    destruct ph as [|c|c|c [r ev]]; [contradiction| | |].
    - destruct (open_step f c) as [[er|] f'] eqn:O; eexists; [eapply SOpenFails|eapply SOpen]; eassumption.
    - destruct K as (_ & K). destruct (open_goes_on e w c g0 fs0 f PF K) as (d & D & _). eexists. eapply SRead; eassumption.
    - eexists. eapply SRelease; [exact T|]. now left. }
  destruct h as [k|]; [destruct IN as (IN & _); exact (RUN k IN)|].
  destruct IN as (-> & -> & IDLE). specialize (IDLE i). destruct (th i) as [ph todo] eqn:T. cbn in HI, IDLE. subst ph.
  destruct HI as [HI|HI]; [contradiction|]. destruct todo as [|c rest]; [contradiction|].
  destruct (g_poisoned g0) eqn:PF; eexists; [eapply SPoisoned; [exact T|exact PF|now left]|eapply SAcquire; eassumption].
Qed.

Lemma log_after_panic e w fs P s : steps e w (start fs P) s ->
  forall i j x y, nth_error (outcomes_of (s_log s)) i = Some x -> nth_error (outcomes_of (s_log s)) j = Some y ->
    (i < j)%nat -> fst x = Panic -> y = (Panic, []).
Proof.
  intros H. destruct (reachable_good e w fs P s H) as (g0 & fs0 & R & _).
  revert g0 fs0 R. generalize (outcomes_of (s_log s)) as out. generalize (calls_of (s_log s)) as l. clear.
  induction l as [|c l IH] using rev_ind; intros out g0 fs0 R i j x y Hi Hj L X.
  - injection R as <- _ _. destruct i; discriminate.
  - rewrite one_by_one_snoc in R.
    destruct (run_past e w fs l) as (past & g & fs' & E & PC). rewrite E in R, IH. cbv beta iota zeta in R.
    destruct (open_from_file _ _ _ _ _ _ _ _) as [[[r g2] ev] fs2] eqn:O. injection R as <- <- <-.
    assert (Li : (i < List.length (rev past))%nat).
    { assert (j < List.length (rev past ++ [(r, ev)]))%nat by (apply nth_error_Some; congruence).
      rewrite app_length in *. cbn in *. lia. }
    rewrite nth_error_app1 in Hi by exact Li.
    destruct (Nat.lt_ge_cases j (List.length (rev past))) as [Lj|Lj].
    + rewrite nth_error_app1 in Hj by exact Lj. eapply IH; try reflexivity; eassumption.
    + rewrite nth_error_app2 in Hj by exact Lj. destruct (j - List.length (rev past))%nat as [|m]; [|destruct m; discriminate].
      injection Hj as <-. destruct (after_history e w _ g fs' (k_now c) (k_sched c) (k_path c) (k_mode c) PC) as (A & _).
      assert (IP : In Panic (map fst past)).
      { apply nth_error_In in Hi. apply in_rev in Hi. rewrite <- X. now apply in_map. }
      rewrite (A IP) in O. now injection O as <- _ <- _.
Qed.

(** ** Termination *)
Definition left_in (t : thread) : nat :=
  4 * List.length (t_todo t) + match t_phase t with Idle => 0 | Locked _ => 3 | Opened _ => 2 | Finished _ _ => 1 end.
Definition left_to (m : nat) (th : nat -> thread) : nat := list_sum (map (fun i => left_in (th i)) (seq 0 m)).

Lemma list_sum_app' a b : list_sum (a ++ b) = (list_sum a + list_sum b)%nat.
Proof. induction a as [|x a IH]; [reflexivity|]. change (list_sum ((x :: a) ++ b)) with (x + list_sum (a ++ b))%nat. rewrite IH. change (list_sum (x :: a)) with (x + list_sum a)%nat. lia. Qed.

Lemma left_to_update m th i t : (i < m)%nat -> (left_to m (update th i t) + left_in (th i) = left_to m th + left_in t)%nat.
Proof.
  unfold left_to. induction m as [|m IH]; intros L; [lia|].
  rewrite seq_S, !map_app, !list_sum_app'. change (0 + m)%nat with m. cbn [map].
  repeat match goal with |- context [list_sum [?x]] => change (list_sum [x]) with (x + 0)%nat end.
  destruct (Nat.eq_dec i m) as [->|D].
  - rewrite update_same. 
    assert (E : map (fun i => left_in (update th m t i)) (seq 0 m) = map (fun i => left_in (th i)) (seq 0 m)).
    { apply map_ext_in. intros j Hj. apply in_seq in Hj. rewrite update_other by lia. reflexivity. }
    rewrite E. lia.
  - rewrite (update_other _ i t m) by lia. specialize (IH ltac:(lia)). lia.
Qed.

(** Threads from [m] on never do anything. *)
Definition quiet_from (m : nat) (th : nat -> thread) : Prop := forall i, (m <= i)%nat -> th i = mkThread Idle [].
Lemma may_follow_le r rest rest' : may_follow r rest rest' -> (List.length rest' <= List.length rest)%nat.
Proof. intros [->|(_ & ->)]; cbn; lia. Qed.

Lemma step_shrinks e w s s' m : quiet_from m (s_threads s) -> step e w s s' ->
  quiet_from m (s_threads s') /\ (left_to m (s_threads s') < left_to m (s_threads s))%nat.
Proof.
  intros Q St.
  assert (X : forall i t th, quiet_from m th -> th i <> mkThread Idle [] -> (left_in t < left_in (th i))%nat ->
     quiet_from m (update th i t) /\ (left_to m (update th i t) < left_to m th)%nat).
  { intros i t th Q' N L. assert (i < m)%nat by (destruct (Nat.lt_ge_cases i m) as [H|H]; [exact H|specialize (Q' i H); contradiction]).
    split.
    - intros j Hj. rewrite update_other by lia. now apply Q'.
    - pose proof (left_to_update m th i t H). lia. }
  destruct St as [i c rest g f th log T PF|i c rest rest' g f th log T PF MF|i c rest h g f th log f' T O
                 |i c rest h g f th log er f' T O|i c rest h g f th log d T C o|i c r ev rest rest' h g f th log T MF];
    cbn [s_threads] in *; apply X; try exact Q; rewrite T; try discriminate; unfold left_in; cbn [t_todo t_phase List.length];
    try (apply may_follow_le in MF); lia.
Qed.

Lemma steps_in_steps e w n s s' : steps_in e w n s s' -> steps e w s s'.
Proof. induction 1; econstructor; eassumption. Qed.

Lemma left_start m fs P : left_to m (s_threads (start fs P)) = (4 * list_sum (map (fun i => List.length (P i)) (seq 0 m)))%nat.
Proof.
  unfold left_to, start. cbn [s_threads]. induction (seq 0 m) as [|x l IH]; [reflexivity|]. cbn [map].
  repeat match goal with |- context [list_sum (?y :: ?z)] => change (list_sum (y :: z)) with (y + list_sum z)%nat end.
  rewrite IH. unfold left_in. cbn [t_todo t_phase]. lia.
Qed.

Lemma bounded e w fs P k n s : total_calls P k -> steps_in e w n (start fs P) s -> (n <= 4 * k)%nat.
Proof.
  intros (m & Q & ->) H.
  assert (X : quiet_from m (s_threads s) /\ (n + left_to m (s_threads s) <= left_to m (s_threads (start fs P)))%nat).
  { remember (start fs P) as s0 eqn:E0. induction H as [s1|n s0' s1 s2 H IH St]; subst.
    - split; [|lia]. intros i Hi. cbn. now rewrite (Q i Hi).
    - destruct (IH eq_refl) as (Q1 & L1). destruct (step_shrinks e w s1 s2 m Q1 St) as (Q2 & L2). split; [exact Q2|lia]. }
  destruct X as (_ & X). rewrite left_start in X. lia.
Qed.

Lemma finished e w fs P s : steps e w (start fs P) s -> (forall s', ~ step e w s s') ->
  s_held s = None /\
  forall i, t_phase (s_threads s i) = Idle /\ t_todo (s_threads s i) = [] /\
    exists lost, P i = calls_by i (s_log s) ++ lost /\ (lost = [] \/ died i (s_log s)).
Proof.
  intros H N.
  assert (I : forall i, t_phase (s_threads s i) = Idle /\ t_todo (s_threads s i) = []).
  { intros i. split.
    - destruct (t_phase (s_threads s i)) eqn:E; [reflexivity| | |];
      (destruct (progress e w fs P s i H) as (s' & St); [left; congruence|destruct (N s' St)]).
    - destruct (t_todo (s_threads s i)) eqn:E; [reflexivity|].
      destruct (progress e w fs P s i H) as (s' & St); [right; congruence|destruct (N s' St)]. }
  destruct (reachable_good e w fs P s H) as (g0 & fs0 & R & IN & PR). split.
  - destruct (s_held s) as [i|]; [|reflexivity]. destruct IN as ((_ & IN) & _). rewrite (proj1 (I i)) in IN. contradiction.
  - intros i. destruct (I i) as (I1 & I2). split; [exact I1|]. split; [exact I2|].
    destruct (PR i) as (lost & E & D). unfold current in E. rewrite I1, I2 in E. exists lost. split; [exact E|exact D].
Qed.

(** From any reachable state the system can run to the end. *)
Lemma can_finish e w fs P k s : total_calls P k -> steps e w (start fs P) s ->
  exists s', steps e w s s' /\ forall s'', ~ step e w s' s''.
Proof.
  intros (m & Q & _) H.
  assert (QS : quiet_from m (s_threads s)).
  { remember (start fs P) as s0 eqn:E0. induction H as [s1|s0' s1 s2 H IH St]; subst.
    - intros i Hi. cbn. now rewrite (Q i Hi).
    - exact (proj1 (step_shrinks e w s1 s2 m (IH eq_refl) St)). }
  remember (left_to m (s_threads s)) as n eqn:En. revert s H QS En.
  induction n as [n IH] using lt_wf_ind. intros s H QS En.
  assert (D : (exists i, (i < m)%nat /\ (t_phase (s_threads s i) <> Idle \/ t_todo (s_threads s i) <> [])) \/
              (forall i, t_phase (s_threads s i) = Idle /\ t_todo (s_threads s i) = [])).
  { assert (Y : forall j, (exists i, (i < j)%nat /\ (t_phase (s_threads s i) <> Idle \/ t_todo (s_threads s i) <> [])) \/
                (forall i, (i < j)%nat -> t_phase (s_threads s i) = Idle /\ t_todo (s_threads s i) = [])).
    { induction j as [|j IHj]; [right; intros; lia|]. destruct IHj as [(i & L & X)|A]; [left; exists i; split; [lia|exact X]|].
      destruct (t_phase (s_threads s j)) eqn:E1; [|left; exists j; split; [lia|left; congruence]..].
      destruct (t_todo (s_threads s j)) eqn:E2; [|left; exists j; split; [lia|right; congruence]].
      right. intros i L. destruct (Nat.eq_dec i j) as [->|Ne]; [auto|]. apply A. lia. }
    destruct (Y m) as [X|A]; [left; exact X|right]. intros i. destruct (Nat.lt_ge_cases i m) as [L|L]; [now apply A|].
    rewrite (QS i L). auto. }
  destruct D as [(i & _ & X)|A].
  - destruct (progress e w fs P s i H X) as (s1 & St). destruct (step_shrinks e w s s1 m QS St) as (Q1 & L1).
    destruct (IH (left_to m (s_threads s1)) ltac:(lia) s1 (StepsS e w _ _ _ H St) Q1 eq_refl) as (s2 & R & F).
    exists s2. split; [|exact F]. clear - R St. induction R as [|s1 a b R IHR Sb]; [econstructor; [constructor|exact St]|].
    econstructor; [exact (IHR St)|exact Sb].
  - exists s. split; [constructor|]. intros s'' St. destruct (reachable_good e w fs P s H) as (g0 & fs0 & R & IN & PR).
    destruct St as [j c rest g f th log T PF|j c rest rest' g f th log T PF MF|j c rest h g f th log f' T O
                 |j c rest h g f th log er f' T O|j c rest h g f th log d T C o|j c r ev rest rest' h g f th log T MF];
    specialize (A j); cbn [s_threads] in A; rewrite T in A; destruct A as (A1 & A2); discriminate.
Qed.
(** A panic kills its thread or is caught: both can happen. *)
Lemma panic_either e w s i c rest rest' : rest' = rest \/ rest' = [] ->
  (s_held s = None -> g_poisoned (s_global s) = true -> s_threads s i = mkThread Idle (c :: rest) ->
     exists s', step e w s s' /\ s_threads s' i = mkThread Idle rest' /\ s_log s' = s_log s ++ [(i, c, (Panic, []))] /\ s_fs s' = s_fs s /\ s_held s' = None) /\
  (forall ev, s_threads s i = mkThread (Finished c (Panic, ev)) rest ->
     exists s', step e w s s' /\ s_threads s' i = mkThread Idle rest' /\ s_log s' = s_log s ++ [(i, c, (Panic, ev))] /\ s_held s' = None /\ g_poisoned (s_global s') = true).
Proof.
  intros R. assert (M : may_follow Panic rest rest') by (destruct R as [R|R]; [now left|right; now split]). destruct s as [h g f th log]. cbn. split.
  - intros -> P T. eexists. split; [now apply (SPoisoned e w i c rest rest')|]. cbn. unfold update. now rewrite Nat.eqb_refl.
  - intros ev T. eexists. split; [now apply (SRelease e w i c Panic ev rest rest')|]. cbn. unfold update. rewrite Nat.eqb_refl. repeat split. now rewrite orb_true_r.
Qed.
