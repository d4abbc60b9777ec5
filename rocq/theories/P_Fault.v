(** Proofs: error texts tell faults apart (C116). *)
From Coq Require Import String.
From Verif Require Import M_Base M_Signature M_Context M_Debug M_Header M_FileFile M_Profile S_Bytes S_Header S_Text S_Debug S_Decimal S_Context S_Profile S_Fault
  P_Decimal P_Debug P_Context P_Open3.
Local Open Scope list_scope.
Local Open Scope Z_scope.

Lemma decimal_injective n m : 0 <= n -> 0 <= m -> decimal n = decimal m -> n = m.
Proof. intros N M E. destruct (decimal_written n N) as (_ & _ & _ & <-). destruct (decimal_written m M) as (_ & _ & _ & <-). now rewrite E. Qed.

Lemma in_removelast {A} (x : A) l : In x (removelast l) -> In x l.
Proof. induction l as [|y l IH]; [easy|]. destruct l; [easy|]. intros [->|H]; [now left|right; now apply IH]. Qed.

Lemma type_text w s : text "Unrecognized plugin type '" ++ quoted w s ++ text "'" = msg_type w s.
Proof. unfold quoted, msg_type. now rewrite <- !app_assoc. Qed.

Lemma complaint_fault u w p p' t : std_quotes u w -> is_uint 4 (type_of p) -> is_uint 4 (type_of p') -> complaint w p t -> complaint w p' t ->
  exists f, plugin_fault p f /\ plugin_fault p' f.
Proof.
  intros W U U' C C'. remember t as t' eqn:E in C'. destruct C as [M|M V|M V T], C' as [M'|M' V'|M' V' T'];
    try (exfalso; clear - E; discriminate E).
  - exists NotAPlugin. now split.
  - apply app_inv_head, app_inv_tail in E. apply decimal_injective in E; [|lia..]. exists (NeedsVersion (version_of p)). now repeat split.
  - rewrite !type_text in E. apply (type_complaint_injective u) in E; [|assumption..]. exists (UnknownType (type_of p)). repeat split; auto.
Qed.
Lemma plugin_fault_fun p f f' : plugin_fault p f -> plugin_fault p f' -> f = f'.
Proof.
  destruct f, f'; cbn; try tauto; intros H H'; repeat match goal with X : _ /\ _ |- _ => destruct X end; subst; try tauto; try lia; try contradiction.
Qed.
Lemma file_fault_fun le d f f' : file_fault le d f -> file_fault le d f' -> f = f'.
Proof.
  destruct f, f'; cbn; try tauto; intros H H'; repeat match goal with X : _ /\ _ |- _ => destruct X end; subst; try tauto; try lia; try contradiction.
Qed.

Lemma plugin_blame u w p p' c c' t d d' ev ev' : std_quotes u w ->
  Forall (fun q => is_uint 4 (type_of q)) (chain p) -> Forall (fun q => is_uint 4 (type_of q)) (chain p') ->
  init_plugin w c p = (SErr t, d, ev) -> init_plugin w c' p' = (SErr t, d', ev') ->
  exists f pre bad post pre' bad' post', removelast (chain p) = pre ++ bad :: post /\ Forall acceptable pre /\ plugin_fault bad f /\
    removelast (chain p') = pre' ++ bad' :: post' /\ Forall acceptable pre' /\ plugin_fault bad' f.
Proof.
  intros W F F' E E'. pose proof (init_report w c p) as R. pose proof (init_report w c' p') as R'. rewrite E in R. rewrite E' in R'.
  unfold validated in R, R'. destruct R as (_ & _ & pre & bad & post & L & A & C). destruct R' as (_ & _ & pre' & bad' & post' & L' & A' & C').
  assert (I : forall q, In q (removelast (chain p)) -> In q (chain p)) by (intros q; apply in_removelast).
  assert (I' : forall q, In q (removelast (chain p')) -> In q (chain p')) by (intros q; apply in_removelast).
  rewrite Forall_forall in F, F'.
  destruct (complaint_fault u w bad bad' t W) as (f & P & P'); [apply F, I; rewrite L; apply in_elt|apply F', I'; rewrite L'; apply in_elt|assumption..|].
  now exists f, pre, bad, post, pre', bad', post'.
Qed.

Lemma file_blame e e' w w' now now' sched sched' ctx ctx' fs fs' q q' d d' code code' t : openable fs q d -> openable fs' q' d' ->
  or_events (open_from_file_thr e w now sched ctx fs q ModeRead) = [(code, t)] ->
  or_events (open_from_file_thr e' w' now' sched' ctx' fs' q' ModeRead) = [(code', t)] ->
  exists f, file_fault (feat_le e) d f /\ file_fault (feat_le e') d' f.
Proof.
  intros O O' E E'. pose proof (handler_calls e w now sched ctx fs q d O) as H. pose proof (handler_calls e' w' now' sched' ctx' fs' q' d' O') as H'.
  cbv zeta in H, H'. rewrite E in H. rewrite E' in H'.
  destruct H as [[X _]|(_ & k & s & X & _ & H)]; [discriminate X|]. destruct H' as [[X' _]|(_ & k' & s' & X' & _ & H')]; [discriminate X'|].
  injection X as <- <-. injection X' as <- <-.
  destruct H as [(M & _ & T)|(M & N & _ & T)], H' as [(M' & _ & T')|(M' & N' & _ & T')].
  - exists NotAProfile. now split.
  - rewrite T in T'. discriminate T'.
  - rewrite T in T'. discriminate T'.
  - rewrite T in T'. apply app_inv_head in T'. apply decimal_injective in T'; [|lia..]. exists (TooManyTags (declared (feat_le e) d)). now repeat split.
Qed.

Lemma never_confused e w w' now sched ctx fs q d code t c p c' ev : openable fs q d ->
  or_events (open_from_file_thr e w now sched ctx fs q ModeRead) = [(code, t)] -> init_plugin w' c p <> (SErr t, c', ev).
Proof.
  intros O E I. pose proof (handler_calls e w now sched ctx fs q d O) as H. cbv zeta in H. rewrite E in H.
  destruct H as [[X _]|(_ & k & s & X & _ & H)]; [discriminate X|]. injection X as <- <-.
  pose proof (init_report w' c p) as R. rewrite I in R. destruct R as (_ & _ & pre & bad & post & _ & _ & C).
  destruct H as [(_ & _ & ->)|(_ & _ & _ & ->)]; inversion C.
Qed.
