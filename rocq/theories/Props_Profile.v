(** C32-C44: opening profiles, tag lookup, equality, the global context. *)
From Coq Require Import String.
From Verif Require Import M_Base M_FileFile M_Signature M_Header M_Context M_Profile S_Bytes S_Header S_Profile
  P_FileFile P_Open P_Open2 P_Open3 Props_Endian Props_Mem Props_Null Props_Header.
Local Open Scope list_scope.
Local Open Scope Z_scope.

(** C32.  [judged] (S_Profile.v) reads the verdict off the bytes; [outcome_is] says what the caller sees. *)
Theorem C32_one_verdict :
  forall (e : env) (d : list Z), are_bytes d -> Z.of_nat (List.length d) <= 9223372036854775807 ->
    exists v, judged (feat_le e) (ovf e) d v /\ forall v', judged (feat_le e) (ovf e) d v' -> v' = v.
Proof. exact verdict_unique. Qed.
Print Assumptions C32_one_verdict.

Theorem C32_open_delivers_the_verdict :
  forall e w now sched ctx fs q d v, openable fs q d -> no_fail sched -> judged (feat_le e) (ovf e) d v ->
    outcome_is e w ctx d v (open_from_file_thr e w now sched ctx fs q ModeRead).
Proof. exact open_read_judged. Qed.
Print Assumptions C32_open_delivers_the_verdict.

Theorem C32_success_iff :
  forall e w now sched ctx fs q d, openable fs q d -> no_fail sched ->
    ((exists p, or_res (open_from_file_thr e w now sched ctx fs q ModeRead) = Ok p) <->
     132 + 12 * declared (feat_le e) d <= Z.of_nat (List.length d) /\
     declared (feat_le e) d <= 100 /\
     h_magic (decode_header (feat_le e) d) = 1633907568 (* "acsp" *) /\
     real_dt (h_date (decode_header (feat_le e) d)) /\
     (ovf e = true -> Forall (fun t => last_byte t < 4294967296) (entries (feat_le e) d))).
Proof. exact open_success_iff. Qed.
Print Assumptions C32_success_iff.

(** When the operating system may also fail reads: the same verdict, or an I/O error and nothing else. *)
Theorem C32_with_failing_reads :
  forall e w now sched ctx fs q d, openable fs q d ->
    let r := open_from_file_thr e w now sched ctx fs q ModeRead in
    (forall x, fs_content (or_fs r) x = fs_content fs x) /\
    ((exists v, judged (feat_le e) (ovf e) d v /\ outcome_is e w ctx d v r) \/
     (or_res r = Err OsError /\ or_events r = [] /\ or_ctx r = ctx /\ ~ no_fail sched)).
Proof. exact open_read_cases. Qed.
Print Assumptions C32_with_failing_reads.

Theorem C32_no_such_file :
  forall e w now sched ctx fs q,
    (fs_content fs q = None -> open_from_file_thr e w now sched ctx fs q ModeRead = mkOpen (Err NotFound) ctx [] fs) /\
    (fs_content fs q <> None -> fs_may_read fs q = false ->
     open_from_file_thr e w now sched ctx fs q ModeRead = mkOpen (Err OsError) ctx [] fs).
Proof. exact open_missing. Qed.
Print Assumptions C32_no_such_file.

(** The repository's test profile: its first 240 bytes, and zeros for the tag data. *)
Definition srgb_directory : list Z :=
  [0;0;0;9;
   100;101;115;99;0;0;0;240;0;0;0;118;
   65;50;66;48;0;0;1;104;0;0;116;16;
   65;50;66;49;0;0;117;120;0;0;1;180;
   66;50;65;48;0;0;119;44;0;0;116;52;
   66;50;65;49;0;0;235;96;0;0;1;252;
   114;105;103;48;0;0;237;92;0;0;0;12;
   119;116;112;116;0;0;237;104;0;0;0;20;
   99;112;114;116;0;0;237;124;0;0;0;118;
   99;104;97;100;0;0;237;244;0;0;0;44].
Definition srgb_file : list Z := srgb_header ++ srgb_directory ++ repeat 0 (Z.to_nat 60720).
Definition disk (d : list Z) : FileSystem :=
  mkFS (fun x => if Nat.eqb x 7 then Some d else None) (fun _ => true) (fun _ => true).
Definition no_world : world := mkWorld (fun _ c _ _ => c) (fun l => l).
Definition today : NaiveDateTime := mkND 2026 1 2 3 4 5 6.
Definition open_disk (e : env) (sched : list os_event) (d : list Z) : open_result :=
  open_from_file_thr e no_world today sched (context_new None) (disk d) 7%nat ModeRead.

Lemma bytes_by_check l : forallb (fun b => (0 <=? b) && (b <? 256)) l = true -> are_bytes l.
Proof. intros H. apply Forall_forall. intros x Hx. rewrite forallb_forall in H. specialize (H x Hx). unfold is_byte. lia. Qed.
Lemma disk_openable d : forallb (fun b => (0 <=? b) && (b <? 256)) d = true ->
  (Z.of_nat (List.length d) <=? 9223372036854775807) = true -> openable (disk d) 7%nat d.
Proof. intros H L. split; [reflexivity|]. split; [reflexivity|]. split; [now apply bytes_by_check|now apply Z.leb_le]. Qed.

Definition names_at (r : open_result) : option (nat * list Signature * list Z * list Z * bool) :=
  match or_res r with
  | Ok p => Some (p_tag_count p, firstn 9 (p_tag_names p), firstn 9 (p_tag_sizes p), firstn 9 (p_tag_offsets p),
                  forallb (fun l => match l with None => true | _ => false end) (p_tag_linked p))
  | _ => None
  end.

Example C32_srgb :
  openable (disk srgb_file) 7%nat srgb_file /\ no_fail [EvShort 3; EvIntr; EvShort 100] /\
  names_at (open_disk pc [EvShort 3; EvIntr; EvShort 100] srgb_file) =
  Some (9%nat,
        map (fun s => wire_value false (text s)) ["desc"; "A2B0"; "A2B1"; "B2A0"; "B2A1"; "rig0"; "wtpt"; "cprt"; "chad"]%string,
        [118; 29712; 436; 29748; 508; 12; 20; 118; 44],
        [240; 360; 30072; 30508; 60256; 60764; 60776; 60796; 60916], true).
Proof.
  split; [apply disk_openable; vm_compute; reflexivity|].
  split; [repeat constructor; discriminate|vm_compute; reflexivity].
Qed.
Example C32_srgb_cut : or_res (open_disk pc [] (firstn 239 srgb_file)) = Err UnexpectedEof.
Proof. vm_compute. reflexivity. Qed.

(** C33 *)
Theorem C33_tags_inside_the_file :
  forall e w now sched ctx fs q d p, openable fs q d ->
    or_res (open_from_file_thr e w now sched ctx fs q ModeRead) = Ok p ->
    exists l : list TagEntry,
      (p_tag_count p = List.length l /\ (List.length l <= 100)%nat /\ Z.of_nat (List.length l) <= declared (feat_le e) d) /\
      (firstn (List.length l) (p_tag_names p) = map t_sig l /\
       firstn (List.length l) (p_tag_offsets p) = map t_offset l /\
       firstn (List.length l) (p_tag_sizes p) = map t_size l) /\
      Forall (fun t => t_offset t + t_size t <= word (feat_le e) d 0 4 /\ t_offset t + t_size t <= Z.of_nat (List.length d)) l /\
      (* nothing in bounds is dropped or moved, on a platform that can express the file's length *)
      (Z.of_nat (List.length d) < usize_lim e ->
       l = filter (fun t => t_offset t + t_size t <=? Z.min (word (feat_le e) d 0 4) (Z.of_nat (List.length d)))
                  (entries (feat_le e) d)).
Proof. exact tags_inside. Qed.
Print Assumptions C33_tags_inside_the_file.

(** Two entries, the first one byte past the end of the file: it is left out. *)
Definition two_tags (size1 off1 size2 off2 : list Z) : list Z :=
  srgb_header ++ [0;0;0;2] ++ [65;66;67;68] ++ off1 ++ size1 ++ [69;70;71;72] ++ off2 ++ size2 ++ repeat 0 44.
Example C33_out_of_bounds_dropped :
  let d := two_tags [0;0;0;45] [0;0;0;156] [0;0;0;44] [0;0;0;156] in
  List.length d = 200%nat /\ openable (disk d) 7%nat d /\
  match or_res (open_disk pc [] d) with
  | Ok p => (p_tag_count p, nth 0 (p_tag_names p) 0, nth 0 (p_tag_sizes p) 0) = (1%nat, 1162233672 (* "EFGH" *), 44)
  | _ => False end.
Proof. split; [reflexivity|]. split; [apply disk_openable; vm_compute; reflexivity|vm_compute; reflexivity]. Qed.

(** C34 *)
Theorem C34_panics_iff :
  forall e w now sched ctx fs q d, openable fs q d -> no_fail sched ->
    (or_res (open_from_file_thr e w now sched ctx fs q ModeRead) = Panic <->
     (128 <= List.length d)%nat /\ h_magic (decode_header (feat_le e) d) = 1633907568 /\
     (~ real_dt (h_date (decode_header (feat_le e) d)) \/
      (ovf e = true /\ real_dt (h_date (decode_header (feat_le e) d)) /\ (132 <= List.length d)%nat /\
       declared (feat_le e) d <= 100 /\
       exists i, (i < readable_entries (feat_le e) d)%nat /\ 4294967296 <= last_byte (entry (feat_le e) d i)))).
Proof.
  exact (fun e w now sched ctx fs q d HO NF => iff_trans (open_panics_iff e w now sched ctx fs q d HO NF) (panics_when (feat_le e) (ovf e) d)).
Qed.
Print Assumptions C34_panics_iff.

Theorem C34_read_failures_cause_no_panic :
  forall e w now sched ctx fs q d, openable fs q d ->
    or_res (open_from_file_thr e w now sched ctx fs q ModeRead) = Panic ->
    or_res (open_from_file_thr e w now [] ctx fs q ModeRead) = Panic.
Proof. exact panic_without_failures. Qed.
Print Assumptions C34_read_failures_cause_no_panic.

(** The date zeroed out; and, with overflow checks, an entry whose end does not fit 32 bits. *)
Definition zero_date : list Z := firstn 24 srgb_file ++ repeat 0 12 ++ skipn 36 srgb_file.
Definition huge_tag : list Z := two_tags [255;255;255;255] [0;0;0;1] [0;0;0;44] [0;0;0;156].
Theorem C34_never_panics_refuted :
  (openable (disk zero_date) 7%nat zero_date /\ or_res (open_disk pc_release [] zero_date) = Panic) /\
  (openable (disk huge_tag) 7%nat huge_tag /\ or_res (open_disk pc [] huge_tag) = Panic /\
   exists p, or_res (open_disk pc_release [] huge_tag) = Ok p /\ p_tag_count p = 1%nat).
Proof.
  split.
  - split; [apply disk_openable; vm_compute; reflexivity|vm_compute; reflexivity].
  - split; [apply disk_openable; vm_compute; reflexivity|]. split; [vm_compute; reflexivity|].
    eexists. split; [vm_compute; reflexivity|reflexivity].
Qed.
Print Assumptions C34_never_panics_refuted.

(** C35 *)
Theorem C35_handler_calls :
  forall e w now sched ctx fs q d, openable fs q d ->
    let r := open_from_file_thr e w now sched ctx fs q ModeRead in
    (or_events r = [] /\ or_ctx r = ctx) \/
    (or_res r = Err InvalidData /\ exists code t, or_events r = [(code, t)] /\ or_ctx r = call_handler w ctx code t /\
      ((h_magic (decode_header (feat_le e) d) <> 1633907568 /\ code = EC_BadSignature /\
        t = text "not an ICC profile, invalid signature") \/
       (h_magic (decode_header (feat_le e) d) = 1633907568 /\ 100 < declared (feat_le e) d /\ code = EC_Range /\
        t = text "Too many tags " ++ decimal (declared (feat_le e) d)))).
Proof. exact handler_calls. Qed.
Print Assumptions C35_handler_calls.

Theorem C35_wrong_magic :
  forall e w now sched ctx fs q d, openable fs q d -> no_fail sched ->
    (128 <= List.length d)%nat -> h_magic (decode_header (feat_le e) d) <> 1633907568 ->
    let r := open_from_file_thr e w now sched ctx fs q ModeRead in
    or_res r = Err InvalidData /\ or_events r = [(EC_BadSignature, text "not an ICC profile, invalid signature")] /\
    or_ctx r = call_handler w ctx EC_BadSignature (text "not an ICC profile, invalid signature").
Proof. exact bad_magic_reported. Qed.
Print Assumptions C35_wrong_magic.

Theorem C35_too_many_tags :
  forall e w now sched ctx fs q d, openable fs q d -> no_fail sched ->
    (132 <= List.length d)%nat -> h_magic (decode_header (feat_le e) d) = 1633907568 ->
    real_dt (h_date (decode_header (feat_le e) d)) -> 100 < declared (feat_le e) d ->
    let t := text "Too many tags " ++ decimal (declared (feat_le e) d) in
    let r := open_from_file_thr e w now sched ctx fs q ModeRead in
    or_res r = Err InvalidData /\ or_events r = [(EC_Range, t)] /\ or_ctx r = call_handler w ctx EC_Range t.
Proof. exact too_many_reported. Qed.
Print Assumptions C35_too_many_tags.

(** A handler (number 1) that stores what it is told as user data. *)
Definition noting : world := mkWorld (fun _ c _ t =>
  mkCtx (Some t) (c_error_handler c) (c_alarm_codes c) (c_adaption_state c) (c_interpolators c) (c_curves c)
        (c_formatters c) (c_tag_types c) (c_tags c) (c_intents c) (c_mpe_types c) (c_optimizations c) (c_transforms c)) (fun l => l).
Definition noting_context : Context := mkCtx None 1%nat [] (c_adaption_state (context_new None)) 0%nat [] [] [] [] [] [] [] [].
Example C35_example_too_many :
  let d := srgb_header ++ [0;0;1;0] in
  let r := open_from_file_thr s390 noting today [] noting_context (disk d) 7%nat ModeRead in
  or_res r = Err InvalidData /\ or_events r = [(EC_Range, text "Too many tags 256")] /\
  get_user_data (or_ctx r) = Some (text "Too many tags 256").
Proof. vm_compute. auto. Qed.
Example C35_example_magic :
  let d := firstn 36 srgb_header ++ [65] ++ skipn 37 srgb_header in
  let r := open_from_file_thr pc noting today [] noting_context (disk d) 7%nat ModeRead in
  or_res r = Err InvalidData /\ map fst (or_events r) = [EC_BadSignature].
Proof. vm_compute. auto. Qed.

(** C36 *)
Theorem C36_depends_on_directory_and_length :
  forall e w now now' sched sched' ctx fs fs' q q' d d',
    openable fs q d -> openable fs' q' d' -> no_fail sched -> no_fail sched' ->
    List.length d = List.length d' ->
    firstn (directory_end (feat_le e) d) d = firstn (directory_end (feat_le e) d) d' ->
    same_outcome (open_from_file_thr e w now sched ctx fs q ModeRead)
                 (open_from_file_thr e w now' sched' ctx fs' q' ModeRead).
Proof. exact open_local. Qed.
Print Assumptions C36_depends_on_directory_and_length.

Theorem C36_files_untouched :
  forall e w now sched ctx fs q d, openable fs q d ->
    forall x, fs_content (or_fs (open_from_file_thr e w now sched ctx fs q ModeRead)) x = fs_content fs x.
Proof. exact read_only. Qed.
Print Assumptions C36_files_untouched.
(** So it is when the file cannot be opened, and no opening changes what may be read or created. *)
Theorem C36_nothing_else_changes :
  forall e w now sched ctx fs q mode,
    let r := open_from_file_thr e w now sched ctx fs q mode in
    fs_may_read (or_fs r) = fs_may_read fs /\ fs_may_create (or_fs r) = fs_may_create fs /\
    (mode = ModeRead -> (forall d, fs_content fs q = Some d -> are_bytes d /\ Z.of_nat (List.length d) <= 9223372036854775807) ->
     forall x, fs_content (or_fs r) x = fs_content fs x).
Proof. exact any_open_permissions. Qed.
Print Assumptions C36_nothing_else_changes.

Example C36_example :
  let d := two_tags [0;0;0;45] [0;0;0;156] [0;0;0;44] [0;0;0;156] in
  let d' := firstn 156 d ++ repeat 255 44 in
  d <> d' /\ openable (disk d) 7%nat d /\ openable (disk d') 7%nat d' /\ List.length d = List.length d' /\
  directory_end false d = 156%nat /\ firstn 156 d = firstn 156 d' /\
  names_at (open_disk pc [] d) = names_at (open_disk pc [EvShort 5] d').
Proof.
  split; [discriminate|].
  split; [apply disk_openable; vm_compute; reflexivity|]. split; [apply disk_openable; vm_compute; reflexivity|].
  split; [reflexivity|]. split; [reflexivity|]. split; [reflexivity|]. vm_compute. reflexivity.
Qed.

(** C37 *)
Theorem C37_host_independent :
  forall e1 e2 w now sched ctx fs q mode d, same_build e1 e2 -> openable fs q d ->
    open_from_file_thr e1 w now sched ctx fs q mode = open_from_file_thr e2 w now sched ctx fs q mode.
Proof. exact open_same_host. Qed.
Print Assumptions C37_host_independent.
Example C37_example : same_build pc s390 /\ host_big pc <> host_big s390.
Proof. repeat split; discriminate. Qed.

(** C38.  [None] is the index panic. *)
Theorem C38_tag_signature :
  forall e w now sched ctx fs q d p n, openable fs q d ->
    or_res (open_from_file_thr e w now sched ctx fs q ModeRead) = Ok p ->
    get_tag_count p = List.length (listed e d) /\
    get_tag_signature p n =
      (if (n <? get_tag_count p)%nat then Some (nth n (map t_sig (listed e d)) 0)
       else if (n =? 100)%nat && (get_tag_count p =? 100)%nat then None else Some 538976288 (* four spaces *)).
Proof. exact opened_tag_signature. Qed.
Print Assumptions C38_tag_signature.

Definition hundred_tags : list Z :=
  srgb_header ++ [0;0;0;100] ++ List.concat (repeat [65;66;67;68; 0;0;0;0; 0;0;0;4] 100).
Theorem C38_accessor_never_panics_refuted :
  openable (disk hundred_tags) 7%nat hundred_tags /\
  exists p, or_res (open_disk pc [] hundred_tags) = Ok p /\
    get_tag_signature p 99 = Some 1094861636 (* "ABCD" *) /\ get_tag_signature p 100 = None /\
    get_tag_signature p 101 = Some 538976288.
Proof.
  split; [apply disk_openable; vm_compute; reflexivity|].
  eexists. split; [vm_compute; reflexivity|]. vm_compute. auto.
Qed.
Print Assumptions C38_accessor_never_panics_refuted.
Example C38_srgb : match or_res (open_disk pc [] srgb_file) with
  | Ok p => get_tag_signature p 8 = Some 1667785060 (* "chad" *) /\ get_tag_signature p 9 = Some 538976288
  | _ => False end.
Proof. vm_compute. auto. Qed.

(** C39 *)
Theorem C39_first_match :
  forall e w now sched ctx fs q d p sig, openable fs q d ->
    or_res (open_from_file_thr e w now sched ctx fs q ModeRead) = Ok p ->
    exists r, first_match sig (listed e d) r /\ forall fuel, search_tag (S fuel) p sig false = Done r.
Proof. exact opened_search. Qed.
Print Assumptions C39_first_match.
Example C39_srgb : match or_res (open_disk pc [] srgb_file) with
  | Ok p => search_tag 1 p 1110589745 (* "B2A1" *) false = Done (Some 4%nat) /\ search_tag 1 p 5 false = Done None
  | _ => False end.
Proof. vm_compute. auto. Qed.

(** C40.  [search_tag n] runs [n] rounds of the loop; [Running] means it is still going. *)
Theorem C40_follow_links :
  forall e w now sched ctx fs q d p sig, openable fs q d ->
    or_res (open_from_file_thr e w now sched ctx fs q ModeRead) = Ok p ->
    (first_match sig (listed e d) None -> forall fuel, search_tag (S fuel) p sig true = Done None) /\
    (forall i t, first_match sig (listed e d) (Some i) -> nth_error (listed e d) i = Some t ->
      ((exists k t', (i < k)%nat /\ nth_error (listed e d) k = Some t' /\ t_offset t' = t_offset t /\ t_size t' = t_size t) ->
       forall fuel, search_tag fuel p sig true = Running sig) /\
      (~ (exists k t', (i < k)%nat /\ nth_error (listed e d) k = Some t' /\ t_offset t' = t_offset t /\ t_size t' = t_size t) ->
       forall fuel, search_tag (S fuel) p sig true = Done (Some i))).
Proof. exact opened_search_follow. Qed.
Print Assumptions C40_follow_links.

Definition shared : list Z := two_tags [0;0;0;44] [0;0;0;156] [0;0;0;44] [0;0;0;156].
Theorem C40_search_terminates_refuted :
  openable (disk shared) 7%nat shared /\
  exists p, or_res (open_disk pc [] shared) = Ok p /\ p_tag_count p = 2%nat /\
    (forall fuel, search_tag fuel p 1094861636 (* "ABCD" *) true = Running 1094861636) /\
    search_tag 1 p 1162233672 (* "EFGH" *) true = Done (Some 1%nat).
Proof.
  assert (HO : openable (disk shared) 7%nat shared) by (apply disk_openable; vm_compute; reflexivity).
  split; [exact HO|].
  destruct (or_res (open_disk pc [] shared)) as [p|er|] eqn:E; [|vm_compute in E; discriminate|vm_compute in E; discriminate].
  exists p. split; [reflexivity|]. split; [vm_compute in E; injection E as <-; reflexivity|]. split.
  - destruct (opened_search_follow pc no_world today [] (context_new None) (disk shared) 7%nat shared p 1094861636 HO E) as (_ & F).
    refine (proj1 (F 0%nat (mkTag 1094861636 156 44) _ eq_refl) _).
    + apply (FMSome _ _ _ (mkTag 1094861636 156 44)); [reflexivity|reflexivity|]. intros j t' Hj. lia.
    + exists 1%nat, (mkTag 1162233672 156 44). split; [lia|]. split; [vm_compute; reflexivity|]. split; reflexivity.
  - vm_compute in E. injection E as <-. vm_compute. reflexivity.
Qed.
Print Assumptions C40_search_terminates_refuted.

(** C41 *)
Theorem C41_links :
  forall e w now sched ctx fs q d p, openable fs q d ->
    or_res (open_from_file_thr e w now sched ctx fs q ModeRead) = Ok p ->
    (forall j t, nth_error (listed e d) j = Some t ->
      exists link, nth_error (p_tag_linked p) j = Some link /\ (link = None \/ link = Some (t_sig t)) /\
        (link <> None <->
         exists k t', (j < k)%nat /\ nth_error (listed e d) k = Some t' /\ t_offset t' = t_offset t /\ t_size t' = t_size t)) /\
    (forall j, (List.length (listed e d) <= j < 100)%nat -> nth_error (p_tag_linked p) j = Some None).
Proof. exact opened_links. Qed.
Print Assumptions C41_links.

Theorem C41_later_entry_links_to_earlier_refuted :
  openable (disk shared) 7%nat shared /\
  exists p, or_res (open_disk pc [] shared) = Ok p /\
    nth_error (p_tag_linked p) 0 = Some (Some 1094861636) /\ nth_error (p_tag_linked p) 1 = Some None.
Proof.
  split; [apply disk_openable; vm_compute; reflexivity|]. eexists. split; [vm_compute; reflexivity|]. vm_compute. auto.
Qed.
Print Assumptions C41_later_entry_links_to_earlier_refuted.

(** C42 *)
Theorem C42_open_for_write_fails :
  forall e w now sched ctx fs q,
    let r := open_from_file_thr e w now sched ctx fs q ModeWrite in
    or_res r = Err OsError /\ or_events r = [] /\ or_ctx r = ctx /\
    (forall x, fs_content (or_fs r) x = if fs_may_create fs q && Nat.eqb x q then Some [] else fs_content fs x).
Proof. exact open_write. Qed.
Print Assumptions C42_open_for_write_fails.
Example C42_example :
  fs_content (disk srgb_file) 7%nat = Some srgb_file /\
  let r := open_from_file_thr pc no_world today [] (context_new None) (disk srgb_file) 7%nat ModeWrite in
  or_res r = Err OsError /\ fs_content (or_fs r) 7%nat = Some [].
Proof. split; [reflexivity|]. vm_compute. auto. Qed.

(** C43 *)
Theorem C43_equality :
  forall (H : Type) (a b c : Profile H),
    (profile_eqb a b = true <-> without_io a = without_io b) /\
    profile_eqb a a = true /\ profile_eqb a b = profile_eqb b a /\
    (profile_eqb a b = true -> profile_eqb b c = true -> profile_eqb a c = true).
Proof. exact @equality_facts. Qed.
Print Assumptions C43_equality.
Example C43_example :
  match or_res (open_disk pc [] srgb_file), or_res (open_disk s390 [EvShort 1] srgb_file), or_res (open_disk pc [] shared) with
  | Ok a, Ok b, Ok c => profile_eqb a b = true /\ profile_eqb a c = false
  | _, _, _ => False end.
Proof. vm_compute. auto. Qed.

(** C44 *)
Theorem C44_global_opens :
  forall e w past g fs now sched q mode, past_calls e w past g fs ->
    (In Panic past -> open_from_file e w now sched g fs q mode = (Panic, g, [], fs)) /\
    (~ In Panic past ->
     let o := open_from_file_thr e w now sched (context_new None) fs q mode in
     open_from_file e w now sched g fs q mode =
     (or_res o, mkGlobal (context_new None) (match or_res o with Panic => true | _ => false end), or_events o, or_fs o)).
Proof. exact after_history. Qed.
Print Assumptions C44_global_opens.

(** A bad file first; then the good one, which opened before, panics. *)
Example C44_example :
  let call g d := open_from_file pc no_world today [] g (disk d) 7%nat ModeRead in
  let result (x : res (Profile File) * Global * list event * FileSystem) := fst (fst (fst x)) in
  let global (x : res (Profile File) * Global * list event * FileSystem) := snd (fst (fst x)) in
  let first := call global_init srgb_file in
  let second := call (global first) huge_tag in
  let third := call (global second) srgb_file in
  match result first, result second, result third with
  | Ok p, Panic, Panic => p_tag_count p = 9%nat
  | _, _, _ => False end.
Proof. vm_compute. reflexivity. Qed.
