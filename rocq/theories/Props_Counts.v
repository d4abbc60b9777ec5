(** C104: which bytes of a profile file decide what opening it gives. *)
From Verif Require Import M_Base M_Signature M_Header M_Context M_Profile M_FileFile S_Bytes S_Header S_Profile S_Conditions S_Counts
  P_Open2 P_Same P_Counts P_Counts2 Props_Endian Props_Mem Props_Profile.
Local Open Scope list_scope.
Local Open Scope Z_scope.

(** C104.  Neither the ignored header bytes nor anything behind the directory matters. *)
Theorem C104_ignored_bytes :
  forall e w now now' sched sched' ctx fs fs' q q' d d',
    openable fs q d -> openable fs' q' d' -> no_fail sched -> no_fail sched' -> List.length d = List.length d' ->
    agree_on (fun p => (p < directory_end (feat_le e) d)%nat /\ ~ ignored p) d d' ->
    same_outcome (open_from_file_thr e w now sched ctx fs q ModeRead) (open_from_file_thr e w now' sched' ctx fs' q' ModeRead).
Proof. exact ignored_bytes. Qed.
Print Assumptions C104_ignored_bytes.

(** Profiles are equal iff the kept bytes are, and the listed tags. *)
Theorem C104_kept_bytes :
  forall e1 e2 w1 w2 now1 now2 sched1 sched2 ctx1 ctx2 fs1 fs2 q1 q2 d1 d2 p1 p2,
    openable fs1 q1 d1 -> openable fs2 q2 d2 -> feat_le e1 = feat_le e2 ->
    or_res (open_from_file_thr e1 w1 now1 sched1 ctx1 fs1 q1 ModeRead) = Ok p1 ->
    or_res (open_from_file_thr e2 w2 now2 sched2 ctx2 fs2 q2 ModeRead) = Ok p2 ->
    (profile_eqb p1 p2 = true <-> agree_on kept d1 d2 /\ listed e1 d1 = listed e2 d2).
Proof. exact equal_bytes. Qed.
Print Assumptions C104_kept_bytes.

(** The magic bytes are "acsp", backwards in a build for little-endian files. *)
Theorem C104_magic_bytes :
  forall e w now sched ctx fs q d p, openable fs q d ->
    or_res (open_from_file_thr e w now sched ctx fs q ModeRead) = Ok p ->
    firstn 4 (skipn 36 d) = if feat_le e then [112; 115; 99; 97] else [97; 99; 115; 112].
Proof. exact magic_bytes. Qed.
Print Assumptions C104_magic_bytes.

(** A change inside a listed directory entry, and nowhere else, is never lost. *)
Theorem C104_listed_entries :
  forall e w now1 now2 sched1 sched2 ctx fs1 fs2 q1 q2 d1 d2 p1 p2 i,
    openable fs1 q1 d1 -> openable fs2 q2 d2 -> List.length d1 = List.length d2 ->
    or_res (open_from_file_thr e w now1 sched1 ctx fs1 q1 ModeRead) = Ok p1 ->
    or_res (open_from_file_thr e w now2 sched2 ctx fs2 q2 ModeRead) = Ok p2 ->
    (i < Z.to_nat (declared (feat_le e) d1))%nat -> In (entry (feat_le e) d1 i) (listed e d1) ->
    agree_on (fun p => ~ (132 + 12 * i <= p < 144 + 12 * i)%nat) d1 d2 -> profile_eqb p1 p2 = true -> d1 = d2.
Proof. exact entry_counts. Qed.
Print Assumptions C104_listed_entries.

(** The list of ignored bytes is complete: for every other one up to the end of the directory there are two files that
    differ in this byte only and open differently. *)
Theorem C104_no_other_byte_is_ignored :
  forall p, (p < 156)%nat -> ~ ignored p ->
  exists d d', openable (disk d) 7%nat d /\ openable (disk d') 7%nat d' /\ List.length d = 200%nat /\ List.length d' = 200%nat /\
    agree_on (fun x => x <> p) d d' /\ ~ same_outcome (open_disk pc [] d) (open_disk pc [] d').
Proof. exact other_bytes_count. Qed.
Print Assumptions C104_no_other_byte_is_ignored.

(** The hypotheses of the first theorem met by files that differ: platform, illuminant, reserved bytes and tag data. *)
Example C104_example :
  let d := sized [0;0;0;200] in
  let d' := set_byte (set_byte (set_byte (set_byte d 40 1) 70 2) 127 3) 199 4 in
  map (fun n => nth n d 0 =? nth n d' 0) [40; 70; 127; 199]%nat = [false; false; false; false] /\
  match or_res (open_disk pc [] d), or_res (open_disk pc [] d') with
  | Ok p, Ok p' => profile_eqb p p' = true /\ p_tag_count p = 2%nat | _, _ => False end.
Proof. vm_compute. auto. Qed.
