(** C105: opening a file of which only the first part has arrived. *)
From Verif Require Import M_Base M_Signature M_Header M_Context M_Profile M_FileFile S_Bytes S_Header S_Profile S_Conditions S_Grow
  P_Grow Props_Endian Props_Mem Props_Profile.
Local Open Scope list_scope.
Local Open Scope Z_scope.

(** C105.  Only the error UnexpectedEof can be cured by more bytes at the end. *)
Theorem C105_final_verdicts :
  forall e w now now' sched sched' ctx fs fs' q q' d x,
    openable fs q d -> openable fs' q' (d ++ x) -> no_fail sched -> no_fail sched' ->
    let r := open_from_file_thr e w now sched ctx fs q ModeRead in
    let r' := open_from_file_thr e w now' sched' ctx fs' q' ModeRead in
    or_res r <> Err UnexpectedEof ->
    or_events r' = or_events r /\ or_ctx r' = or_ctx r /\
    match or_res r, or_res r' with
    | Ok p, Ok p' => header_part p' = header_part p
    | Err k, Err k' => k' = k
    | Panic, Panic => True
    | _, _ => False
    end.
Proof. exact grown. Qed.
Print Assumptions C105_final_verdicts.

(** The tags the first part lists are those of the whole that lie inside it; all of them, once the size in the header
    is reached. *)
Theorem C105_tags :
  forall e w now sched ctx fs q d x p, openable fs q d ->
    or_res (open_from_file_thr e w now sched ctx fs q ModeRead) = Ok p ->
    Z.of_nat (List.length (d ++ x)) < usize_lim e ->
    listed e d = filter (fun t => last_byte t <=? Z.of_nat (List.length d)) (listed e (d ++ x)) /\
    (word (feat_le e) d 0 4 <= Z.of_nat (List.length d) -> listed e (d ++ x) = listed e d).
Proof. exact grown_tags. Qed.
Print Assumptions C105_tags.

(** A file that opens, cut anywhere, opens iff its directory survives; otherwise the error is UnexpectedEof and
    nothing is logged. *)
Theorem C105_cut :
  forall e w now sched ctx fs fs' q q' d m now' sched' p,
    openable fs q d -> openable fs' q' (firstn m d) -> no_fail sched' ->
    or_res (open_from_file_thr e w now sched ctx fs q ModeRead) = Ok p ->
    let r' := open_from_file_thr e w now' sched' ctx fs' q' ModeRead in
    (132 + 12 * declared (feat_le e) d <= Z.of_nat m -> exists p', or_res r' = Ok p') /\
    (Z.of_nat m < 132 + 12 * declared (feat_le e) d -> or_res r' = Err UnexpectedEof /\ or_events r' = [] /\ or_ctx r' = ctx).
Proof. exact cut. Qed.
Print Assumptions C105_cut.

(** Two tags, at 156-200 and 156-199, in a file of 201 bytes, its size in the header.  Cut at 155 bytes it does not open,
    at 156 it opens without tags, at 200 with one, and the whole has both.  A wrong signature is final after 128 bytes. *)
Definition whole : list Z := [0;0;0;201] ++ skipn 4 (two_tags [0;0;0;45] [0;0;0;156] [0;0;0;44] [0;0;0;156]) ++ [0].
Definition wrong_magic : list Z := firstn 36 whole ++ [0] ++ skipn 37 whole.
Example C105_example :
  List.length whole = 201%nat /\ openable (disk whole) 7%nat whole /\
  openable (disk (firstn 200 whole)) 7%nat (firstn 200 whole) /\
  or_res (open_disk pc [] (firstn 155 whole)) = Err UnexpectedEof /\
  map (fun m => match or_res (open_disk pc [] (firstn m whole)) with Ok p => p_tag_count p | _ => 77%nat end) [156; 199; 200; 201]%nat
    = [0; 0; 1; 2]%nat /\
  map (fun m => match or_res (open_disk pc [] (firstn m wrong_magic)) with Err k => Some k | _ => None end) [127; 128; 201]%nat
    = [Some UnexpectedEof; Some InvalidData; Some InvalidData].
Proof.
  split; [reflexivity|]. split; [apply disk_openable; vm_compute; reflexivity|].
  split; [apply disk_openable; vm_compute; reflexivity|]. vm_compute. auto.
Qed.
