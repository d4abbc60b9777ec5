(** C66: opening a profile from any source at all. *)
From Coq Require Import String.
From Verif Require Import M_Base M_IO M_FileFile M_Signature M_Header M_Context M_Profile S_Bytes S_Header S_Profile S_Source
  P_Source Props_Endian Props_Null Props_Header Props_Profile.
Local Open Scope list_scope.
Local Open Scope Z_scope.

(** Whatever the source answers - the file may change between any two calls, and any call may fail or
    panic - the call follows the script and does what the bytes delivered to it justify. *)
Theorem C66_every_source :
  forall (S : Type) e w (h : IOHandler S) c now s, well_typed e h ->
    let o := read_header_thr e w h c (with_mode (profile_new now) s false) in
    exists l s', talk h s l s' /\ p_io (o_profile o) = Some s' /\ follows_script l /\ justified e w c l s' o.
Proof. exact @any_source. Qed.
Print Assumptions C66_every_source.

Theorem C66_at_most_106_calls :
  forall l, follows_script l -> (List.length l <= 106)%nat.
Proof. exact script_length. Qed.
Print Assumptions C66_at_most_106_calls.

(** The source's [write] is never called. *)
Theorem C66_never_writes :
  forall (S : Type) e w (rd : S -> list Z -> res unit * S * list Z) sk te (wr wr' : S -> list Z -> res unit * S) c p,
    read_header_thr e w (mkIO rd sk te wr) c p = read_header_thr e w (mkIO rd sk te wr') c p.
Proof. exact @never_writes. Qed.
Print Assumptions C66_never_writes.

Theorem C66_table_is_always_sound :
  forall (S : Type) e w (h : IOHandler S) c now s p, well_typed e h ->
    let o := read_header_thr e w h c (with_mode (profile_new now) s false) in
    o_res o = Ok tt -> o_profile o = p ->
    exists l s' len, talk h s l s' /\ nth_error l 3 = Some (XTell (Ok len)) /\
      (p_tag_count p <= 100)%nat /\ List.length (p_tag_names p) = 100%nat /\ List.length (p_tag_offsets p) = 100%nat /\
      List.length (p_tag_sizes p) = 100%nat /\ List.length (p_tag_linked p) = 100%nat /\
      forall i, (i < p_tag_count p)%nat ->
        nth i (p_tag_offsets p) 0 + nth i (p_tag_sizes p) 0 <= Z.min (word (feat_le e) (delivered l) 0 4) len.
Proof. exact @any_source_tags. Qed.
Print Assumptions C66_table_is_always_sound.

(** A file that is replaced after the header was read: state = position and number of reads so far. *)
Definition replaced (a b : list Z) : IOHandler (nat * nat) := mkIO
  (fun s buf => let d := if Nat.eqb (snd s) 0 then a else b in
                let n := List.length buf in
                if (fst s + n <=? List.length d)%nat
                then (Ok tt, (fst s + n, snd s + 1)%nat, firstn n (skipn (fst s) d))
                else (Err UnexpectedEof, (fst s, snd s + 1)%nat, buf))
  (fun s f => match f with
              | SeekStart p => (Ok tt, (Z.to_nat p, snd s))
              | SeekEnd _ => (Ok tt, (List.length b, snd s))
              | SeekCurrent _ => (Err InvalidInput, s)
              end)
  (fun s => (Ok (Z.of_nat (fst s) mod usize_lim pc), s))
  (fun s _ => (Err OsError, s)).

Example C66_replaced_is_well_typed a b : are_bytes a -> are_bytes b -> well_typed pc (replaced a b).
Proof.
  intros HA HB. split.
  - intros s n s' x H. cbn [io_read replaced] in H. rewrite repeat_length in H.
    set (d := if Nat.eqb (snd s) 0 then a else b) in *. assert (HD : are_bytes d) by (unfold d; now destruct (Nat.eqb (snd s) 0)). clearbody d.
    destruct (Nat.leb_spec (fst s + n) (List.length d)) as [L|L]; [|discriminate]. injection H as _ <-. split.
    + rewrite firstn_length, skipn_length. lia.
    + apply P_Header.slice_bytes. exact HD.
  - intros s n s' H. injection H as <- _. apply Z.mod_pos_bound. reflexivity.
Qed.

(** The header of the repository's test profile, the directory of another file: one consistent profile.
    And with the file cut off in between: an error. *)
Example C66_example :
  let run b := read_header_thr pc no_world (replaced srgb_file b) (context_new None)
                 (with_mode (profile_new today) (0, 0)%nat false) in
  (o_res (run shared) = Ok tt /\
   (p_tag_count (o_profile (run shared)), p_version (o_profile (run shared)), nth 1 (p_tag_names (o_profile (run shared))) 0)
   = (2%nat, h_version (decode_header false srgb_file), 1162233672 (* "EFGH" *))) /\
  o_res (run (firstn 130 shared)) = Err UnexpectedEof /\
  o_res (run huge_tag) = Panic.
Proof. vm_compute. repeat split. Qed.
