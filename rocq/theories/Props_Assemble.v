(** C68: a profile file written with the crate's calls opens as what was written. *)
From Coq Require Import String.
From Verif Require Import M_Base M_IO M_FileFile M_Signature M_Header M_Context M_Profile S_Bytes S_Header S_Profile S_Assemble
  P_FileFile P_Header P_Assemble Props_Endian Props_Null Props_Header Props_File Props_Profile.
Local Open Scope list_scope.
Local Open Scope Z_scope.

(** The writer's host ([e1]) and the reader's ([e2]) may differ; both were built with the same byte-order
    feature.  The listed tags are those that end within the declared size and the file. *)
Theorem C68_save_then_open :
  forall e1 e2 w now sched sched' ctx fs q h ts data,
    feat_le e1 = feat_le e2 ->
    header_wf h -> Forall tag_wf ts -> are_bytes data ->
    h_magic h = 1633907568 (* "acsp" *) -> real_dt (h_date h) -> (List.length ts <= 100)%nat ->
    (ovf e2 = true -> Forall (fun t => last_byte t < 4294967296) ts) ->
    saved_length ts data <= 9223372036854775807 -> no_fail sched -> no_fail sched' ->
    exists f, save e1 (file_io e1) h ts data (mkFile [] 0 false true sched) = (Ok tt, f) /\
      forall r, r = open_from_file_thr e2 w now sched' ctx fs q ModeRead ->
      fs_content fs q = Some (f_data f) -> fs_may_read fs q = true ->
      or_ctx r = ctx /\ or_events r = [] /\
      exists io, or_res r =
        Ok (profile_with h (filter (fun t => last_byte t <=? Z.min (h_size h) (saved_length ts data mod usize_lim e2)) ts) (Some io)).
Proof. exact save_then_open. Qed.
Print Assumptions C68_save_then_open.

(** Between builds of different byte order it always fails, as a file that is no profile. *)
Theorem C68_other_byte_order_fails :
  forall e1 e2 w now sched sched' ctx fs q h ts data,
    feat_le e1 <> feat_le e2 ->
    header_wf h -> are_bytes data -> h_magic h = 1633907568 ->
    saved_length ts data <= 9223372036854775807 -> no_fail sched -> no_fail sched' ->
    exists f, save e1 (file_io e1) h ts data (mkFile [] 0 false true sched) = (Ok tt, f) /\
      forall r, r = open_from_file_thr e2 w now sched' ctx fs q ModeRead ->
      fs_content fs q = Some (f_data f) -> fs_may_read fs q = true ->
      or_res r = Err InvalidData /\
      or_events r = [(EC_BadSignature, text "not an ICC profile, invalid signature")].
Proof. exact save_then_open_other. Qed.
Print Assumptions C68_other_byte_order_fails.

(** A case: a little-endian build cannot open what a big-endian build wrote. *)
Theorem C68_other_byte_order_refuted :
  let h := decode_header false srgb_header in
  let d := f_data (snd (save pc (file_io pc) h [] [] (mkFile [] 0 false true []))) in
  openable (disk d) 7%nat d /\
  or_res (open_disk (mkEnv false true true true false false) [] d) = Err InvalidData.
Proof. split; [apply disk_openable; vm_compute; reflexivity|vm_compute; reflexivity]. Qed.
Print Assumptions C68_other_byte_order_refuted.

(** Written on a big-endian host through a bumpy disk, read on a little-endian one. *)
Definition two_entries : list TagEntry := [mkTag 1684370275 156 20; mkTag 2004119668 156 30000].
Example C68_example :
  let h := decode_header false srgb_header in
  (header_wf h /\ Forall tag_wf two_entries /\ real_dt (h_date h)) /\
  let d := f_data (snd (save s390 (file_io s390) h two_entries (repeat 9 20) (mkFile [] 0 false true bumpy))) in
  openable (disk d) 7%nat d /\
  match or_res (open_disk pc bumpy d) with
  | Ok p => (p_tag_count p, nth 0 (p_tag_names p) 0, p_version p) = (1%nat, 1684370275, h_version h)
  | _ => False
  end.
Proof.
  split; [split; [apply decode_wf; [apply Forall_forall; intros b Hb; revert b Hb; apply Forall_forall|reflexivity]|split]|].
  - vm_compute. repeat constructor; discriminate.
  - repeat constructor; vm_compute; discriminate.
  - split; [exists 31; split; [constructor|]|]; vm_compute; repeat split; discriminate.
  - split; [apply disk_openable; vm_compute; reflexivity|vm_compute; reflexivity].
Qed.
