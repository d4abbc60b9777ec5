(** C69-C71: what signatures and profile ids print as; when two opened profiles compare equal. *)
From Coq Require Import String.
From Verif Require Import M_Base M_Signature M_Header M_Context M_Debug M_Profile M_FileFile S_Bytes S_Header S_Text S_Debug S_Profile S_Same
  P_Debug P_Same Props_Endian Props_Mem Props_Profile.
Local Open Scope list_scope.
Local Open Scope Z_scope.

(** C69 *)
Theorem C69_plain_text :
  forall (u : unicode) (s : Signature), (forall c, 32 <= c <= 126 -> u_shown u c = true) -> is_uint 4 s ->
    Forall plain (sig_to_bytes s) ->
    sig_debug u s = text "Signature { value: " ++ (dq ++ sig_to_bytes s ++ dq) ++ text " }" /\
    sig_debug_pretty u s = text "Signature {" ++ [10] ++ text "    value: " ++ (dq ++ sig_to_bytes s ++ dq) ++ text "," ++ [10] ++ text "}".
Proof. exact sig_debug_plain. Qed.
Print Assumptions C69_plain_text.

Theorem C69_hex_listing :
  forall (u : unicode) (s : Signature), (forall c, 32 <= c <= 126 -> u_shown u c = true) -> is_uint 4 s ->
    ~ is_text (sig_to_bytes s) ->
    sig_debug u s = text "Signature { value: " ++ (dq ++ listing (sig_to_bytes s) ++ dq) ++ text " }" /\
    sig_debug_pretty u s = text "Signature {" ++ [10] ++ text "    value: " ++ (dq ++ listing (sig_to_bytes s) ++ dq) ++ text "," ++ [10] ++ text "}".
Proof. exact sig_debug_listing. Qed.
Print Assumptions C69_hex_listing.

Theorem C69_injective :
  forall (u : unicode) (a b : Signature), is_uint 4 a -> is_uint 4 b ->
    (sig_debug u a = sig_debug u b -> a = b) /\ (sig_debug_pretty u a = sig_debug_pretty u b -> a = b).
Proof. exact sig_debug_injective. Qed.
Print Assumptions C69_injective.

Theorem C69_lines :
  forall (u : unicode) (s : Signature), is_uint 4 s ->
    line_breaks (sig_debug u s) = 0%nat /\ line_breaks (sig_debug_pretty u s) = 2%nat.
Proof. exact sig_debug_lines. Qed.
Print Assumptions C69_lines.

(** Two plug-ins of unknown types are complained about in different words. *)
Theorem C69_complaint_injective :
  forall (u : unicode) (w : world) (a b : Signature), (forall l, is_text l -> w_str_debug w l = str_debug u l) ->
    is_uint 4 a -> is_uint 4 b -> msg_type w a = msg_type w b -> a = b.
Proof. exact type_complaint_injective. Qed.
Print Assumptions C69_complaint_injective.

Definition ascii_only : unicode := mkUnicode (fun c => (32 <=? c) && (c <=? 126)) true.
Example C69_example :
  (forall c, 32 <= c <= 126 -> u_shown ascii_only c = true) /\
  (** 'RGB ' *)
  Forall plain (sig_to_bytes 1380401696) /\
  sig_debug ascii_only 1380401696 = text "Signature { value: " ++ (dq ++ text "RGB " ++ dq) ++ text " }" /\
  (** not text: 0xff 0x00 0x0a 0x80 *)
  is_uint 4 4278192768 /\ utf8_ok (sig_to_bytes 4278192768) = false /\
  sig_debug ascii_only 4278192768 = text "Signature { value: " ++ (dq ++ text " ff   0   a  80 " ++ dq) ++ text " }" /\
  (** text that must be escaped: tab, quote, backslash, NUL *)
  sig_debug ascii_only 153246720 = text "Signature { value: " ++ (dq ++ [92;116;92;34;92;92;92;48] ++ dq) ++ text " }" /\
  (** a character of two bytes (e acute), shown or not *)
  sig_debug ascii_only 3282657651 = text "Signature { value: " ++ (dq ++ text "\u{e9}as" ++ dq) ++ text " }" /\
  sig_debug (mkUnicode (fun _ => true) true) 3282657651 = text "Signature { value: " ++ (dq ++ [195;169;97;115] ++ dq) ++ text " }".
Proof.
  split; [intros c Hc; cbn; lia|]. split; [change (sig_to_bytes 1380401696) with [82;71;66;32]; repeat (apply Forall_cons; [unfold plain; lia|]); apply Forall_nil|].
  repeat split; try (cbn; lia); vm_compute; reflexivity.
Qed.

(** C70 *)
Theorem C70_equality_is_bytewise :
  forall (p q : ProfileID), list_eqb Z.eqb (id8 p) (id8 q) = true <-> p = q.
Proof. exact profile_id_eq. Qed.
Print Assumptions C70_equality_is_bytewise.

Theorem C70_views :
  forall (e : env) (p : ProfileID), are_bytes p -> List.length p = 16%nat ->
    (of_id16 e (id16 e p) = p /\ Forall (is_uint 2) (id16 e p) /\ List.length (id16 e p) = 8%nat) /\
    (of_id32 e (id32 e p) = p /\ Forall (is_uint 4) (id32 e p) /\ List.length (id32 e p) = 4%nat).
Proof. exact (fun e p H L => conj (id16_view e p H L) (id32_view e p H L)). Qed.
Print Assumptions C70_views.

Theorem C70_words_to_id :
  forall (e : env) (l m : list Z), List.length l = 8%nat -> Forall (is_uint 2) l -> List.length m = 4%nat -> Forall (is_uint 4) m ->
    (id16 e (of_id16 e l) = l /\ are_bytes (id8 (of_id16 e l)) /\ List.length (id8 (of_id16 e l)) = 16%nat) /\
    (id32 e (of_id32 e m) = m /\ are_bytes (id8 (of_id32 e m)) /\ List.length (id8 (of_id32 e m)) = 16%nat).
Proof. exact (fun e l m L H M K => conj (id16_there e l L H) (id32_there e m M K)). Qed.
Print Assumptions C70_words_to_id.

(** The id of a profile under construction: eight zero words are the sixteen zero bytes on every host. *)
Theorem C70_new_profile_id :
  forall (e : env) (now : NaiveDateTime) (H : Type),
    of_id16 e (repeat 0 8) = repeat 0 16 /\ p_profile_id (@profile_new H now) = of_id16 e (repeat 0 8).
Proof. exact new_profile_id. Qed.
Print Assumptions C70_new_profile_id.

Theorem C70_debug_text :
  forall (u : unicode) (p : ProfileID), (forall c, 32 <= c <= 126 -> u_shown u c = true) -> are_bytes p ->
    profile_id_debug u p = text "ProfileID { value: " ++ (dq ++ listing p ++ dq) ++ text " }" /\
    profile_id_debug_pretty u p = text "ProfileID {" ++ [10] ++ text "    value: " ++ (dq ++ listing p ++ dq) ++ text "," ++ [10] ++ text "}".
Proof. exact profile_id_debug_text. Qed.
Print Assumptions C70_debug_text.

Theorem C70_debug_injective :
  forall (u : unicode) (p q : ProfileID), are_bytes p -> are_bytes q ->
    (profile_id_debug u p = profile_id_debug u q -> p = q) /\
    (profile_id_debug_pretty u p = profile_id_debug_pretty u q -> p = q).
Proof. exact profile_id_debug_injective. Qed.
Print Assumptions C70_debug_injective.

Definition some_id : ProfileID := [41;248;61;222;175;242;85;174;120;66;250;228;202;131;57;13].
Example C70_example :
  are_bytes some_id /\ List.length some_id = 16%nat /\
  nth 0 (id16 pc some_id) 0 = 63529 /\ nth 0 (id16 s390 some_id) 0 = 10744 /\
  nth 3 (id32 pc some_id) 0 = 221873098 /\
  profile_id_debug ascii_only some_id =
    text "ProfileID { value: " ++ (dq ++ text " 29  f8  3d  de  af  f2  55  ae  78  42  fa  e4  ca  83  39   d " ++ dq) ++ text " }".
Proof. split; [unfold some_id, are_bytes, is_byte; repeat (apply Forall_cons; [lia|]); apply Forall_nil|]. vm_compute. auto 10. Qed.

(** C71 *)
Theorem C71_equal_iff :
  forall e1 e2 w1 w2 now1 now2 sched1 sched2 ctx1 ctx2 fs1 fs2 q1 q2 d1 d2 p1 p2,
    openable fs1 q1 d1 -> openable fs2 q2 d2 ->
    or_res (open_from_file_thr e1 w1 now1 sched1 ctx1 fs1 q1 ModeRead) = Ok p1 ->
    or_res (open_from_file_thr e2 w2 now2 sched2 ctx2 fs2 q2 ModeRead) = Ok p2 ->
    (profile_eqb p1 p2 = true <->
     same_identity (decode_header (feat_le e1) d1) (decode_header (feat_le e2) d2) /\ listed e1 d1 = listed e2 d2).
Proof. exact opened_equal. Qed.
Print Assumptions C71_equal_iff.

Theorem C71_reopened_equal :
  forall e1 e2 w1 w2 now1 now2 sched1 sched2 ctx1 ctx2 fs1 fs2 q1 q2 d p1 p2,
    openable fs1 q1 d -> openable fs2 q2 d -> is64 e1 = is64 e2 \/ Z.of_nat (List.length d) < 2 ^ 32 ->
    or_res (open_from_file_thr e1 w1 now1 sched1 ctx1 fs1 q1 ModeRead) = Ok p1 ->
    or_res (open_from_file_thr e2 w2 now2 sched2 ctx2 fs2 q2 ModeRead) = Ok p2 ->
    profile_eqb p1 p2 = true.
Proof. exact reopened_equal. Qed.
Print Assumptions C71_reopened_equal.

(** Another platform, CMM and tag data: equal. Another creator: not equal. *)
Definition other_platform : list Z := firstn 4 srgb_file ++ [1;2;3;4] ++ firstn 32 (skipn 8 srgb_file) ++ [1;2;3;4] ++ skipn 44 srgb_file.
Definition other_data : list Z := firstn 300 srgb_file ++ [7;7] ++ skipn 302 srgb_file.
Definition other_creator : list Z := firstn 80 srgb_file ++ [1;2;3;4] ++ skipn 84 srgb_file.
Example C71_example :
  match or_res (open_disk pc [] srgb_file), or_res (open_disk s390 [EvShort 1] other_platform),
        or_res (open_disk pc [] other_data), or_res (open_disk pc [] other_creator) with
  | Ok a, Ok b, Ok c, Ok d => profile_eqb a b = true /\ profile_eqb a c = true /\ profile_eqb a d = false
  | _, _, _, _ => False end /\
  map (fun n => nth n other_platform 0 =? nth n srgb_file 0) [4;40]%nat = [false; false] /\
  map (fun n => nth n other_data 0 =? nth n srgb_file 0) [300;301]%nat = [false; false].
Proof. vm_compute. auto. Qed.
