(** C116: equal error texts are about equal faults.  [fault], [plugin_fault], [file_fault]: S_Fault.v. *)
From Coq Require Import String.
From Verif Require Import M_Base M_Signature M_Context M_Debug M_Header M_FileFile M_Profile S_Bytes S_Text S_Header S_Context S_Profile S_Fault
  P_Fault Props_Endian Props_Mem Props_Header Props_Profile Props_Context Props_Debug.
Local Open Scope list_scope.
Local Open Scope Z_scope.

Theorem C116_plugins :
  forall u w p p' c c' t d d' ev ev', std_quotes u w ->
    Forall (fun q => is_uint 4 (type_of q)) (chain p) -> Forall (fun q => is_uint 4 (type_of q)) (chain p') ->
    init_plugin w c p = (SErr t, d, ev) -> init_plugin w c' p' = (SErr t, d', ev') ->
    exists f pre bad post pre' bad' post',
      removelast (chain p) = pre ++ bad :: post /\ Forall acceptable pre /\ plugin_fault bad f /\
      removelast (chain p') = pre' ++ bad' :: post' /\ Forall acceptable pre' /\ plugin_fault bad' f.
Proof. exact plugin_blame. Qed.
Print Assumptions C116_plugins.

(** Even on machines of different byte order. *)
Theorem C116_files :
  forall e e' w w' now now' sched sched' ctx ctx' fs fs' q q' d d' code code' t, openable fs q d -> openable fs' q' d' ->
    or_events (open_from_file_thr e w now sched ctx fs q ModeRead) = [(code, t)] ->
    or_events (open_from_file_thr e' w' now' sched' ctx' fs' q' ModeRead) = [(code', t)] ->
    exists f, file_fault (feat_le e) d f /\ file_fault (feat_le e') d' f.
Proof. exact file_blame. Qed.
Print Assumptions C116_files.

Theorem C116_never_confused :
  forall e w w' now sched ctx fs q d code t c p c' ev, openable fs q d ->
    or_events (open_from_file_thr e w now sched ctx fs q ModeRead) = [(code, t)] -> init_plugin w' c p <> (SErr t, c', ev).
Proof. exact never_confused. Qed.
Print Assumptions C116_never_confused.

(** A plug-in, or a file, has at most one fault. *)
Theorem C116_one_fault :
  (forall p f f', plugin_fault p f -> plugin_fault p f' -> f = f') /\
  (forall le d f f', file_fault le d f -> file_fault le d f' -> f = f').
Proof. exact (conj plugin_fault_fun file_fault_fun). Qed.
Print Assumptions C116_one_fault.

Definition quoting : world := mkWorld (fun _ c _ _ => c) (str_debug ascii_only).
Example C116_cases :
  std_quotes ascii_only quoting /\
  plugin_fault (plug "acpp" "nope" 2132 None) (NeedsVersion 2132) /\ plugin_fault (plug "acpp" "nope" 7 None) (UnknownType (code "nope")) /\
  fst (fst (init_plugin quoting (context_new None) (plug "acpp" "nope" 7 (Some (plug "acpp" "tagH" 0 None))))) =
    SErr (text "Unrecognized plugin type 'Signature { value: " ++ [34] ++ text "nope" ++ [34] ++ text " }'") /\
  file_fault (feat_le s390) (srgb_header ++ [0;0;1;0]) (TooManyTags 256).
Proof.
  split; [intros l _; reflexivity|]. split; [now repeat split|].
  split; [|split; [vm_compute; reflexivity|vm_compute; auto]].
  repeat split; [now cbn|]. vm_compute. intros H. repeat (destruct H as [H|H]; [discriminate H|]). exact H.
Qed.
