(** C109: the data of a listed tag can be fetched through the profile's handler. *)
From Coq Require Import String.
From Verif Require Import M_Base M_IO M_FileFile M_Signature M_Header M_Context M_Profile S_Bytes S_Header S_Profile S_File S_Fetch
  P_FileFile P_Fetch Props_Endian Props_Mem Props_Null Props_Header Props_Profile.
Local Open Scope list_scope.
Local Open Scope Z_scope.

(** C109.  [cs]: whatever was done with the handler since; [sched] may shorten, interrupt and fail. *)
Theorem C109_every_listed_tag_can_be_fetched :
  forall e w now sched ctx fs q d p f cs i, openable fs q d ->
    or_res (open_from_file_thr e w now sched ctx fs q ModeRead) = Ok p -> get_io_handler p = Some f ->
    Forall call_ok cs -> (i < get_tag_count p)%nat ->
    let s := snd (run_calls (call_on (file_io e)) cs f) in
    let o := nth i (p_tag_offsets p) 0 in let n := nth i (p_tag_sizes p) 0 in
    exists bs, bytes_at d o n = Some bs /\
    let answers := fst (run_calls (call_on (file_io e)) (fetch o n) s) in
    (answers = [Ok AUnit; Ok (ABytes bs)] \/ (answers = [Ok AUnit; Err OsError] /\ ~ no_fail sched)).
Proof. exact fetch_listed. Qed.
Print Assumptions C109_every_listed_tag_can_be_fetched.

(** Whatever [search_tag] finds, links followed or not, can be fetched. *)
Theorem C109_every_tag_found_can_be_fetched :
  forall e w now sched ctx fs q d p f cs fuel sig links i, openable fs q d -> no_fail sched ->
    or_res (open_from_file_thr e w now sched ctx fs q ModeRead) = Ok p -> get_io_handler p = Some f ->
    Forall call_ok cs -> search_tag fuel p sig links = Done (Some i) ->
    let s := snd (run_calls (call_on (file_io e)) cs f) in
    let o := nth i (p_tag_offsets p) 0 in let n := nth i (p_tag_sizes p) 0 in
    exists bs, bytes_at d o n = Some bs /\
      fst (run_calls (call_on (file_io e)) (fetch o n) s) = [Ok AUnit; Ok (ABytes bs)].
Proof. exact fetch_named. Qed.
Print Assumptions C109_every_tag_found_can_be_fetched.

(** The handler cannot change the file, and never panics. *)
Theorem C109_handler_only_reads :
  forall e w now sched ctx fs q d p, openable fs q d ->
    or_res (open_from_file_thr e w now sched ctx fs q ModeRead) = Ok p ->
    exists f, get_io_handler p = Some f /\
    forall cs, Forall call_ok cs ->
      let '(answers, s) := run_calls (call_on (file_io e)) cs f in
      f_data s = d /\ List.length answers = List.length cs /\ ~ In Panic answers /\
      forall b bs, call_on (file_io e) (CWrite (b :: bs)) s = (Err OsError, snd (call_on (file_io e) (CWrite (b :: bs)) s)).
Proof. exact only_reads. Qed.
Print Assumptions C109_handler_only_reads.

(** Four bytes of data, fetched after seeking about, reading past the end and trying to write, in pieces. *)
Definition with_data : list Z := srgb_header ++ [0;0;0;1] ++ [65;66;67;68] ++ [0;0;0;145] ++ [0;0;0;4] ++ [9;1;2;3;4;5].
Definition about : list call := [CRead 5000; CSeek (SeekEnd (-1)); CWrite [7]; CSeek (SeekStart 1000000); CTell; CSize].
Example C109_example :
  let sched := [EvShort 100; EvIntr; EvFull; EvFull; EvFull; EvIntr; EvFull; EvFull; EvFull; EvShort 1; EvIntr; EvShort 2] in
  openable (disk with_data) 7%nat with_data /\ no_fail sched /\ Forall call_ok about /\ bytes_at with_data 145 4 = Some [1;2;3;4] /\
  match or_res (open_disk pc sched with_data) with
  | Ok p =>
      match get_io_handler p with
      | Some f =>
          search_tag 1 p 1094861636 (* "ABCD" *) true = Done (Some 0%nat) /\
          nth 0 (p_tag_offsets p) 0 = 145 /\ nth 0 (p_tag_sizes p) 0 = 4 /\
          fst (run_calls (call_on (file_io pc)) (about ++ fetch 145 4) f) =
          [Err UnexpectedEof; Ok AUnit; Err OsError; Ok AUnit; Ok (ANum 1000000); Ok (ANum 150); Ok AUnit; Ok (ABytes [1;2;3;4])]
      | None => False end
  | _ => False end.
Proof.
  split; [apply disk_openable; vm_compute; reflexivity|]. split; [repeat constructor; discriminate|].
  split; [repeat constructor; vm_compute; intuition discriminate|]. vm_compute. repeat split.
Qed.
