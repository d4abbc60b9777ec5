(** Specification: what opening a profile for reading must do, as a function of the file's bytes. *)
From Coq Require Import String.
From Verif Require Import S_Bytes S_Header M_Base M_Signature M_Header M_Context M_Profile M_FileFile.
Local Open Scope list_scope.
Local Open Scope Z_scope.

(** The tag directory: a count at 128, then 12-byte entries from 132 on. *)
Definition declared (little : bool) (c : list Z) : Z := word little c 128 4.
Definition entry (little : bool) (c : list Z) (i : nat) : TagEntry := {|
  t_sig := word little c (132 + 12 * i) 4;
  t_offset := word little c (136 + 12 * i) 4;
  t_size := word little c (140 + 12 * i) 4
|}.
Definition entries (little : bool) (c : list Z) : list TagEntry :=
  map (entry little c) (seq 0 (Z.to_nat (declared little c))).

Definition last_byte (t : TagEntry) : Z := t_offset t + t_size t.
(** [len]: the file's length as the platform reports it. *)
Definition limit (little : bool) (c : list Z) (len : Z) : Z := Z.min (word little c 0 4) len.
Definition in_file (little : bool) (c : list Z) (len : Z) (t : TagEntry) : bool := last_byte t <=? limit little c len.
Definition accepted (little : bool) (c : list Z) (len : Z) : list TagEntry :=
  filter (in_file little c len) (entries little c).

(** An entry is linked - to its own name - iff a later accepted entry has the same data. *)
Definition same_data (a b : TagEntry) : bool := (t_offset a =? t_offset b) && (t_size a =? t_size b).
Fixpoint links (l : list TagEntry) : list (option Signature) :=
  match l with
  | [] => []
  | t :: r => (if existsb (same_data t) r then Some (t_sig t) else None) :: links r
  end.

(** Arrays of 100 elements. *)
Definition pad {A} (d : A) (l : list A) : list A := l ++ repeat d (100 - List.length l).

Definition spec_date (d : DateTimeNumber) : NaiveDateTime :=
  {| nd_year := dt_year d; nd_month := dt_month d; nd_day := dt_day d;
     nd_hour := dt_hours d; nd_min := dt_minutes d; nd_sec := dt_seconds d; nd_nano := 0 |}.

Definition spec_profile {H} (little : bool) (c : list Z) (len : Z) (io : option H) : Profile H :=
  let h := decode_header little c in
  let a := accepted little c len in {|
    p_io := io;
    p_created := spec_date (h_date h);
    p_version := h_version h;
    p_device_class := h_device_class h;
    p_color_space := h_color_space h;
    p_pcs := h_pcs h;
    p_rendering_intent := h_rendering_intent h;
    p_flags := h_flags h;
    p_manufacturer := h_manufacturer h;
    p_model := h_model h;
    p_attributes := h_attributes h;
    p_creator := h_creator h;
    p_profile_id := h_profile_id h;
    p_tag_count := List.length a;
    p_tag_names := pad 538976288 (* four spaces *) (map t_sig a);
    p_tag_linked := pad None (links a);
    p_tag_sizes := pad 0 (map t_size a);
    p_tag_offsets := pad 0 (map t_offset a);
    p_tag_save_as_raw := repeat false 100;
    p_is_write := false
  |}.

(** The verdict on a file. *)
Inductive verdict :=
| Opens
| Fails (k : io_err) (ev : list event)
| Panics.

(** Number of directory entries that lie wholly inside the file. *)
Definition readable_entries (little : bool) (c : list Z) : nat :=
  Nat.min (Z.to_nat (declared little c)) ((List.length c - 132) / 12).

Definition overflowing (little : bool) (c : list Z) (i : nat) : bool := 4294967296 <=? last_byte (entry little c i).

Inductive judged (little checks : bool) (c : list Z) : verdict -> Prop :=
| JShort : (List.length c < 128)%nat -> judged little checks c (Fails UnexpectedEof [])
| JMagic : (128 <= List.length c)%nat -> h_magic (decode_header little c) <> 1633907568 (* "acsp" *) ->
    judged little checks c (Fails InvalidData [(EC_BadSignature, text "not an ICC profile, invalid signature")])
| JDate : (128 <= List.length c)%nat -> h_magic (decode_header little c) = 1633907568 ->
    ~ real_dt (h_date (decode_header little c)) ->
    judged little checks c Panics
| JNoCount : (128 <= List.length c < 132)%nat -> h_magic (decode_header little c) = 1633907568 ->
    real_dt (h_date (decode_header little c)) ->
    judged little checks c (Fails UnexpectedEof [])
| JTooMany : (132 <= List.length c)%nat -> h_magic (decode_header little c) = 1633907568 ->
    real_dt (h_date (decode_header little c)) ->
    100 < declared little c ->
    judged little checks c (Fails InvalidData [(EC_Range, text "Too many tags " ++ decimal (declared little c))])
| JOverflow i : (132 <= List.length c)%nat -> h_magic (decode_header little c) = 1633907568 ->
    real_dt (h_date (decode_header little c)) ->
    declared little c <= 100 ->
    checks = true -> (i < readable_entries little c)%nat -> overflowing little c i = true ->
    judged little checks c Panics
| JCutShort : (132 <= List.length c)%nat -> h_magic (decode_header little c) = 1633907568 ->
    real_dt (h_date (decode_header little c)) ->
    declared little c <= 100 ->
    (checks = true -> forall i, (i < readable_entries little c)%nat -> overflowing little c i = false) ->
    Z.of_nat (List.length c) < 132 + 12 * declared little c ->
    judged little checks c (Fails UnexpectedEof [])
| JOpens : h_magic (decode_header little c) = 1633907568 ->
    real_dt (h_date (decode_header little c)) ->
    declared little c <= 100 ->
    (checks = true -> forall i, (i < Z.to_nat (declared little c))%nat -> overflowing little c i = false) ->
    132 + 12 * declared little c <= Z.of_nat (List.length c) ->
    judged little checks c Opens.

(** Calling the error handler that the context holds; handler 0 is the default, which does nothing. *)
Definition call_handler (w : world) (c : Context) (code : ErrorCode) (t : list Z) : Context :=
  match c_error_handler c with O => c | S _ => w_handler w (c_error_handler c) c code t end.
Definition call_handlers (w : world) (c : Context) (ev : list event) : Context :=
  fold_left (fun c x => call_handler w c (fst x) (snd x)) ev c.

(** [r] is the outcome [v] of opening content [d]. *)
Definition outcome_is (e : env) (w : world) (ctx : Context) (d : list Z) (v : verdict) (r : open_result) : Prop :=
  match v with
  | Opens => or_ctx r = ctx /\ or_events r = [] /\
      exists sched', or_res r =
        Ok (spec_profile (feat_le e) d (Z.of_nat (List.length d) mod usize_lim e)
              (Some (mkFile d (132 + 12 * declared (feat_le e) d) true false sched')))
  | Fails k ev => or_res r = Err k /\ or_events r = ev /\ or_ctx r = call_handlers w ctx ev
  | Panics => or_res r = Panic /\ or_events r = [] /\ or_ctx r = ctx
  end.

(** The file system holds the readable file [q] with content [d], of a length an offset can express. *)
Definition openable (fs : FileSystem) (q : path) (d : list Z) : Prop :=
  fs_content fs q = Some d /\ fs_may_read fs q = true /\ are_bytes d /\ Z.of_nat (List.length d) <= 9223372036854775807.

(** The tags that opening content [d] lists. *)
Definition listed (e : env) (d : list Z) : list TagEntry :=
  accepted (feat_le e) d (Z.of_nat (List.length d) mod usize_lim e).

(** Where the header and the tag directory end. *)
Definition directory_end (little : bool) (d : list Z) : nat :=
  if declared little d <=? 100 then Z.to_nat (132 + 12 * declared little d) else 132%nat.

(** The same build of the crate, possibly for different hosts. *)
Definition same_build (e1 e2 : env) : Prop := feat_le e1 = feat_le e2 /\ ovf e1 = ovf e2 /\ is64 e1 = is64 e2.

(** The position of the first entry named [sig]. *)
Inductive first_match (sig : Signature) (a : list TagEntry) : option nat -> Prop :=
| FMSome i t : nth_error a i = Some t -> t_sig t = sig ->
    (forall j t', (j < i)%nat -> nth_error a j = Some t' -> t_sig t' <> sig) -> first_match sig a (Some i)
| FMNone : (forall t, In t a -> t_sig t <> sig) -> first_match sig a None.

(** Every field but the handler. *)
Definition without_io {H} (p : Profile H) : Profile H :=
  mkProfile None (p_created p) (p_version p) (p_device_class p) (p_color_space p) (p_pcs p)
            (p_rendering_intent p) (p_flags p) (p_manufacturer p) (p_model p) (p_attributes p)
            (p_creator p) (p_profile_id p) (p_tag_count p) (p_tag_names p) (p_tag_linked p)
            (p_tag_sizes p) (p_tag_offsets p) (p_tag_save_as_raw p) (p_is_write p).

(** Equal outcomes, whatever the handlers. *)
Definition same_outcome (r1 r2 : open_result) : Prop :=
  or_events r1 = or_events r2 /\ or_ctx r1 = or_ctx r2 /\
  match or_res r1, or_res r2 with
  | Ok p1, Ok p2 => without_io p1 = without_io p2
  | Err k1, Err k2 => k1 = k2
  | Panic, Panic => True
  | _, _ => False
  end.

(** The past calls of [open_from_file] in a process: their results (latest first), the global context
    and the file system now.  Anything else may change the file system in between. *)
Inductive past_calls (e : env) (w : world) : list (res (Profile File)) -> Global -> FileSystem -> Prop :=
| PCStart fs : past_calls e w [] global_init fs
| PCCall past g fs now sched q mode r g' ev fs' :
    past_calls e w past g fs -> open_from_file e w now sched g fs q mode = (r, g', ev, fs') ->
    past_calls e w (r :: past) g' fs'
| PCOther past g fs fs' : past_calls e w past g fs -> past_calls e w past g fs'.
