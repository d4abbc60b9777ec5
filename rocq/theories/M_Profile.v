(** Model of /repo/src/types/profile.rs. *)
From Coq Require Import String.
From Verif Require Import M_Base M_IO M_Signature M_SigTables M_Header M_Context M_FileFile.

(** /repo/src/types.rs:40 [MAX_TABLE_TAG] *)
Definition MAX_TABLE_TAG : nat := 100.

(** profile.rs:19-41.  [H] is the state type of the boxed handler; Rust arrays are lists (of length
    [MAX_TABLE_TAG], an invariant of [profile_new] and of every update). *)
Record Profile (H : Type) := mkProfile {
  p_io : option H;
  p_created : NaiveDateTime;
  p_version : Z;
  p_device_class : Signature;
  p_color_space : Signature;
  p_pcs : Signature;
  p_rendering_intent : Z;
  p_flags : Z;
  p_manufacturer : Z;
  p_model : Z;
  p_attributes : Z;
  p_creator : Z;
  p_profile_id : list Z;
  p_tag_count : nat;
  p_tag_names : list Signature;
  p_tag_linked : list (option Signature);
  p_tag_sizes : list Z;
  p_tag_offsets : list Z;
  p_tag_save_as_raw : list bool;
  p_is_write : bool
}.
Arguments mkProfile {H}.
Arguments p_io {H}.
Arguments p_created {H}.
Arguments p_version {H}.
Arguments p_device_class {H}.
Arguments p_color_space {H}.
Arguments p_pcs {H}.
Arguments p_rendering_intent {H}.
Arguments p_flags {H}.
Arguments p_manufacturer {H}.
Arguments p_model {H}.
Arguments p_attributes {H}.
Arguments p_creator {H}.
Arguments p_profile_id {H}.
Arguments p_tag_count {H}.
Arguments p_tag_names {H}.
Arguments p_tag_linked {H}.
Arguments p_tag_sizes {H}.
Arguments p_tag_offsets {H}.
Arguments p_tag_save_as_raw {H}.
Arguments p_is_write {H}.

(** profile.rs:58-82; [now] is what [Utc::now().naive_utc()] returned. *)
Definition profile_new {H} (now : NaiveDateTime) : Profile H :=
  mkProfile None now 34603008 (* 0x02100000 *)
            sig_default sig_default sig_default 0 0 0 0 0 0 (repeat 0 16) 0
            (repeat sig_default MAX_TABLE_TAG) (repeat None MAX_TABLE_TAG)
            (repeat 0 MAX_TABLE_TAG) (repeat 0 MAX_TABLE_TAG) (repeat false MAX_TABLE_TAG) false.

(** profile.rs:44-49 *)
Definition get_io_handler {H} (p : Profile H) : option H := p_io p.
(** profile.rs:47-49. *)
Definition get_tag_count {H} (p : Profile H) : nat := p_tag_count p.

(** profile.rs:50-56; [None] = index-out-of-bounds panic. *)
Definition get_tag_signature {H} (p : Profile H) (n : nat) : option Signature :=
  if (p_tag_count p <? n)%nat then Some sig_default else nth_error (p_tag_names p) n.

(** [array[i] = v].
    Cf. profile.rs:186-188,195. *)
Fixpoint set_nth {A} (l : list A) (i : nat) (v : A) : option (list A) :=
  match l, i with
  | [], _ => None
  | _ :: r, O => Some (v :: r)
  | x :: r, S j => match set_nth r j v with Some r' => Some (x :: r') | None => None end
  end.

(** The four arrays and the count that the tag loop updates.
    Cf. profile.rs:34-38. *)
Record TagTable := mkTT {
  tt_count : nat;
  tt_names : list Signature;
  tt_linked : list (option Signature);
  tt_sizes : list Z;
  tt_offsets : list Z
}.

(** profile.rs:191-197 [for j in 0..self.tag_count]; [n] iterations left, starting at [j].
    Returns [tag_linked]; [None] = panic. *)
Fixpoint link_pass (n j : nat) (names : list Signature) (sizes offsets : list Z) (offset size : Z)
         (linked : list (option Signature)) : option (list (option Signature)) :=
  match n with
  | O => Some linked
  | S n' =>
      match nth_error offsets j, nth_error sizes j, nth_error names j with
      | Some o, Some s, Some nm =>
          if (o =? offset) && (s =? size)
          then match set_nth linked j (Some nm) with
               | Some linked' => link_pass n' (S j) names sizes offsets offset size linked'
               | None => None
               end
          else link_pass n' (S j) names sizes offsets offset size linked
      | _, _, _ => None
      end
  end.

(** profile.rs:186-199: store an accepted entry ([as usize] of a u32 is the identity on both pointer
    widths). *)
Definition add_tag (t : TagTable) (tag : TagEntry) : option TagTable :=
  match set_nth (tt_names t) (tt_count t) (t_sig tag),
        set_nth (tt_offsets t) (tt_count t) (t_offset tag),
        set_nth (tt_sizes t) (tt_count t) (t_size tag) with
  | Some names, Some offsets, Some sizes =>
      match link_pass (tt_count t) 0 names sizes offsets (t_offset tag) (t_size tag) (tt_linked t) with
      | Some linked => Some (mkTT (S (tt_count t)) names linked sizes offsets)
      | None => None
      end
  | _, _, _ => None
  end.

(** profile.rs:182: the sanity test; [None] = overflow panic of [tag.offset + tag.size].
    [header_size as u32] truncates. *)
Definition tag_rejected (e : env) (header_size : Z) (tag : TagEntry) : option bool :=
  match u32_add e (t_offset tag) (t_size tag) with
  | None => None
  | Some sum => Some ((header_size mod 2 ^ 32 <? sum) || (sum <? t_offset tag))
  end.

(** profile.rs:175-200 [for _ in 0..tag_count] *)
Fixpoint read_tags {H} (e : env) (h : IOHandler H) (header_size : Z) (n : nat) (t : TagTable) (s : H)
  : res unit * H * TagTable :=
  match n with
  | O => (Ok tt, s, t)
  | S n' =>
      match read_array h 12 s with
      | (Ok buf, s1) =>
          let tag := tag_from_bytes e buf in
          match tag_rejected e header_size tag with
          | None => (Panic, s1, t)
          | Some true => read_tags e h header_size n' t s1
          | Some false =>
              match add_tag t tag with
              | None => (Panic, s1, t)
              | Some t' => read_tags e h header_size n' t' s1
              end
          end
      | (Err er, s1) => (Err er, s1, t)
      | (Panic, s1) => (Panic, s1, t)
      end
  end.

(** profile.rs:133 and 171 *)
Definition msg_not_icc : list Z := text "not an ICC profile, invalid signature".
(** profile.rs:171. *)
Definition msg_too_many (n : Z) : list Z := text "Too many tags " ++ decimal n.

(** profile.rs:119-122: the handler after the calls made through [io]. *)
Definition with_io {H} (p : Profile H) (s : H) : Profile H :=
  mkProfile (Some s) (p_created p) (p_version p) (p_device_class p) (p_color_space p) (p_pcs p)
            (p_rendering_intent p) (p_flags p) (p_manufacturer p) (p_model p) (p_attributes p)
            (p_creator p) (p_profile_id p) (p_tag_count p) (p_tag_names p) (p_tag_linked p)
            (p_tag_sizes p) (p_tag_offsets p) (p_tag_save_as_raw p) (p_is_write p).

(** profile.rs:138-149 *)
Definition set_header_fields {H} (p : Profile H) (h : ICCHeader) : Profile H :=
  mkProfile (p_io p) (p_created p) (h_version h) (h_device_class h) (h_color_space h) (h_pcs h)
            (h_rendering_intent h) (h_flags h) (sig_to_u32 (h_manufacturer h)) (h_model h)
            (h_attributes h) (sig_to_u32 (h_creator h)) (p_profile_id p) (p_tag_count p)
            (p_tag_names p) (p_tag_linked p) (p_tag_sizes p) (p_tag_offsets p)
            (p_tag_save_as_raw p) (p_is_write p).

(** profile.rs:163 and 166 *)
Definition set_created_id {H} (p : Profile H) (d : NaiveDateTime) (id : list Z) : Profile H :=
  mkProfile (p_io p) d (p_version p) (p_device_class p) (p_color_space p) (p_pcs p)
            (p_rendering_intent p) (p_flags p) (p_manufacturer p) (p_model p) (p_attributes p)
            (p_creator p) id (p_tag_count p) (p_tag_names p) (p_tag_linked p)
            (p_tag_sizes p) (p_tag_offsets p) (p_tag_save_as_raw p) (p_is_write p).

(** profile.rs:34-38. *)
Definition tags_of {H} (p : Profile H) : TagTable :=
  mkTT (p_tag_count p) (p_tag_names p) (p_tag_linked p) (p_tag_sizes p) (p_tag_offsets p).

(** profile.rs:186-199. *)
Definition with_tags {H} (p : Profile H) (t : TagTable) : Profile H :=
  mkProfile (p_io p) (p_created p) (p_version p) (p_device_class p) (p_color_space p) (p_pcs p)
            (p_rendering_intent p) (p_flags p) (p_manufacturer p) (p_model p) (p_attributes p)
            (p_creator p) (p_profile_id p) (tt_count t) (tt_names t) (tt_linked t)
            (tt_sizes t) (tt_offsets t) (p_tag_save_as_raw p) (p_is_write p).

(** What a call leaves behind: its outcome, the profile, the context, the error-handler calls.
    Cf. profile.rs:117. *)
Record outcome (H : Type) := mkOut {
  o_res : res unit;
  o_profile : Profile H;
  o_ctx : Context;
  o_events : list event
}.
Arguments mkOut {H}.
Arguments o_res {H}.
Arguments o_profile {H}.
Arguments o_ctx {H}.
Arguments o_events {H}.

(** profile.rs:168-202 *)
Definition read_directory {H} (e : env) (w : world) (h : IOHandler H) (c : Context) (header_size : Z)
           (p : Profile H) (s : H) : outcome H :=
  match read_u32 e h s with
  | (Err er, s3) => mkOut (Err er) (with_io p s3) c []
  | (Panic, s3) => mkOut Panic (with_io p s3) c []
  | (Ok tag_count, s3) =>
      if Z.of_nat MAX_TABLE_TAG <? tag_count
      then let '(c', ev) := signal_error w c EC_Range (msg_too_many tag_count) in
           mkOut (Err InvalidData) (with_io p s3) c' ev
      else
        let '(r, s4, t) := read_tags e h header_size (Z.to_nat tag_count) (tags_of p) s3 in
        mkOut r (with_tags (with_io p s4) t) c []
  end.

(** profile.rs:117-203 [read_header_thr] *)
Definition read_header_thr {H} (e : env) (w : world) (h : IOHandler H) (c : Context) (p : Profile H)
  : outcome H :=
  match p_io p with
  | None => mkOut (Err InvalidData) p c []
  | Some s =>
      match read_array h 128 s with
      | (Err er, s1) => mkOut (Err er) (with_io p s1) c []
      | (Panic, s1) => mkOut Panic (with_io p s1) c []
      | (Ok buf, s1) =>
          let header := header_from_bytes e buf in
          if negb (sig_eqb (h_magic header) MAGIC_NUMBER)
          then let '(c', ev) := signal_error w c EC_BadSignature msg_not_icc in
               mkOut (Err InvalidData) (with_io p s1) c' ev
          else
            let p1 := set_header_fields p header in
            match reported_size h s1 with
            | (Err er, s2) => mkOut (Err er) (with_io p1 s2) c []
            | (Panic, s2) => mkOut Panic (with_io p1 s2) c []
            | (Ok reported, s2) =>
                let header_size := as_usize e (h_size header) in
                let header_size := if reported <=? header_size then reported else header_size in
                match dt_to_naive (h_date header) with
                | None => mkOut Panic (with_io p1 s2) c []
                | Some d =>
                    read_directory e w h c header_size
                                   (set_created_id p1 d (h_profile_id header)) s2
                end
            end
      end
  end.

(** profile.rs:205-212 [search_one_tag]: [n] iterations left, starting at [i].
    Outer [None] = index panic. *)
Fixpoint search_one_from (names : list Signature) (sig : Signature) (n i : nat) : option (option nat) :=
  match n with
  | O => Some None
  | S n' =>
      match nth_error names i with
      | None => None
      | Some nm => if sig_eqb sig nm then Some (Some i) else search_one_from names sig n' (S i)
      end
  end.
(** profile.rs:205-212. *)
Definition search_one_tag {H} (p : Profile H) (sig : Signature) : option (option nat) :=
  search_one_from (p_tag_names p) sig (p_tag_count p) 0.

(** One iteration of the loop of [search_tag] (profile.rs:214-230). *)
Inductive search_step :=
| Return (r : option nat)
| Continue (sig : Signature)
| StepPanic.

(** profile.rs:214-230. *)
Definition search_tag_step {H} (p : Profile H) (sig : Signature) (follow_links : bool) : search_step :=
  match search_one_tag p sig with
  | None => StepPanic
  | Some None => Return None
  | Some (Some n) =>
      if negb follow_links then Return (Some n)
      else match nth_error (p_tag_linked p) n with
           | None => StepPanic
           | Some (Some value) => Continue value
           | Some None => Return (Some n)
           end
  end.

(** profile.rs:213-231 [search_tag] run for at most [fuel] iterations.  [Running] means that the loop
    has not returned yet: the call diverges iff it is [Running] for every [fuel]. *)
Inductive run := Done (r : option nat) | RunPanic | Running (sig : Signature).
(** profile.rs:213-231. *)
Fixpoint search_tag {H} (fuel : nat) (p : Profile H) (sig : Signature) (follow_links : bool) : run :=
  match fuel with
  | O => Running sig
  | S f =>
      match search_tag_step p sig follow_links with
      | Return r => Done r
      | Continue sig' => search_tag f p sig' follow_links
      | StepPanic => RunPanic
      end
  end.

(** profile.rs:234-256 [PartialEq for Profile]; the element comparisons are those of the field types
    ([NaiveDateTime] derives structural equality; arrays compare element-wise). *)
Fixpoint list_eqb {A} (eqb : A -> A -> bool) (l1 l2 : list A) : bool :=
  match l1, l2 with
  | [], [] => true
  | a :: r1, b :: r2 => eqb a b && list_eqb eqb r1 r2
  | _, _ => false
  end.
(** profile.rs:250. *)
Definition option_eqb {A} (eqb : A -> A -> bool) (a b : option A) : bool :=
  match a, b with
  | None, None => true
  | Some x, Some y => eqb x y
  | _, _ => false
  end.
(** profile.rs:236. *)
Definition nd_eqb (a b : NaiveDateTime) : bool :=
  (nd_year a =? nd_year b) && (nd_month a =? nd_month b) && (nd_day a =? nd_day b) &&
  (nd_hour a =? nd_hour b) && (nd_min a =? nd_min b) && (nd_sec a =? nd_sec b) &&
  (nd_nano a =? nd_nano b).
(** profile.rs:234-256. *)
Definition profile_eqb {H} (a b : Profile H) : bool :=
  nd_eqb (p_created a) (p_created b)
  && (p_version a =? p_version b)
  && sig_eqb (p_device_class a) (p_device_class b)
  && sig_eqb (p_color_space a) (p_color_space b)
  && sig_eqb (p_pcs a) (p_pcs b)
  && (p_rendering_intent a =? p_rendering_intent b)
  && (p_flags a =? p_flags b)
  && (p_manufacturer a =? p_manufacturer b)
  && (p_model a =? p_model b)
  && (p_attributes a =? p_attributes b)
  && (p_creator a =? p_creator b)
  && list_eqb Z.eqb (p_profile_id a) (p_profile_id b)
  && (p_tag_count a =? p_tag_count b)%nat
  && list_eqb sig_eqb (p_tag_names a) (p_tag_names b)
  && list_eqb (option_eqb sig_eqb) (p_tag_linked a) (p_tag_linked b)
  && list_eqb Z.eqb (p_tag_sizes a) (p_tag_sizes b)
  && list_eqb Z.eqb (p_tag_offsets a) (p_tag_offsets b)
  && list_eqb Bool.eqb (p_tag_save_as_raw a) (p_tag_save_as_raw b)
  && Bool.eqb (p_is_write a) (p_is_write b).

(** /repo/src/io.rs:71-74 [AccessMode] *)
Inductive AccessMode := ModeRead | ModeWrite.

(** The file system as far as [File::open]/[File::create] see it: contents, and which paths the
    process may open for reading / create or truncate.
    Cf. the [AsRef<Path>] of profile.rs:83,96, only told apart. *)
Definition path : Type := nat.
(** profile.rs:101,103. *)
Record FileSystem := mkFS {
  fs_content : path -> option (list Z);
  fs_may_read : path -> bool;
  fs_may_create : path -> bool
}.
(** profile.rs:103. *)
Definition fs_set (fs : FileSystem) (q : path) (d : list Z) : FileSystem :=
  mkFS (fun r => if Nat.eqb r q then Some d else fs_content fs r) (fs_may_read fs) (fs_may_create fs).

(** [File::open]: read-only, offset 0.
    Cf. profile.rs:101. *)
Definition fs_open (fs : FileSystem) (q : path) (sched : list os_event) : res File :=
  match fs_content fs q with
  | None => Err NotFound
  | Some d => if fs_may_read fs q then Ok (mkFile d 0 true false sched) else Err OsError
  end.

(** [File::create]: write-only, created or truncated.
    Cf. profile.rs:103. *)
Definition fs_create (fs : FileSystem) (q : path) (sched : list os_event) : res File * FileSystem :=
  if fs_may_create fs q then (Ok (mkFile [] 0 false true sched), fs_set fs q []) else (Err OsError, fs).

(** Result of opening: the [io::Result<Box<Profile>>], the context, the error-handler calls and the
    file system afterwards.
    Cf. profile.rs:94. *)
Record open_result := mkOpen {
  or_res : res (Profile File);
  or_ctx : Context;
  or_events : list event;
  or_fs : FileSystem
}.

(** profile.rs:101,103-104. *)
Definition with_mode {H} (p : Profile H) (s : H) (is_write : bool) : Profile H :=
  let q := with_io p s in
  mkProfile (p_io q) (p_created q) (p_version q) (p_device_class q) (p_color_space q) (p_pcs q)
            (p_rendering_intent q) (p_flags q) (p_manufacturer q) (p_model q) (p_attributes q)
            (p_creator q) (p_profile_id q) (p_tag_count q) (p_tag_names q) (p_tag_linked q)
            (p_tag_sizes q) (p_tag_offsets q) (p_tag_save_as_raw q) is_write.

(** profile.rs:107-109; afterwards the file on disk is what the handle holds. *)
Definition finish_open (e : env) (w : world) (c : Context) (fs : FileSystem) (q : path)
           (p : Profile File) : open_result :=
  let o := read_header_thr e w (file_io e) c p in
  let fs' := match p_io (o_profile o) with
             | Some s => fs_set fs q (f_data s)
             | None => fs
             end in
  mkOpen (match o_res o with
          | Ok _ => Ok (o_profile o)
          | Err er => Err er
          | Panic => Panic
          end) (o_ctx o) (o_events o) fs'.

(** profile.rs:90-110 [open_from_file_thr] *)
Definition open_from_file_thr (e : env) (w : world) (now : NaiveDateTime) (sched : list os_event)
           (c : Context) (fs : FileSystem) (q : path) (mode : AccessMode) : open_result :=
  let profile := profile_new now in
  match mode with
  | ModeRead =>
      match fs_open fs q sched with
      | Ok f => finish_open e w c fs q (with_mode profile f false)
      | Err er => mkOpen (Err er) c [] fs
      | Panic => mkOpen Panic c [] fs
      end
  | ModeWrite =>
      match fs_create fs q sched with
      | (Ok f, fs1) => finish_open e w c fs1 q (with_mode profile f true)
      | (Err er, fs1) => mkOpen (Err er) c [] fs1
      | (Panic, fs1) => mkOpen Panic c [] fs1
      end
  end.

(** context.rs:40 [GLOBAL_CONTEXT : Lazy<Mutex<Context>>]: value and poison flag.  The [Lazy]
    initialiser is [Context::new(None)]. *)
Record Global := mkGlobal { g_ctx : Context; g_poisoned : bool }.
(** context.rs:40. *)
Definition global_init : Global := mkGlobal (context_new None) false.

(** profile.rs:83-89 [open_from_file]: [lock().unwrap()] panics when poisoned; the guard is dropped at
    the end, and marks the mutex poisoned when dropped by a panic. *)
Definition open_from_file (e : env) (w : world) (now : NaiveDateTime) (sched : list os_event)
           (g : Global) (fs : FileSystem) (q : path) (mode : AccessMode)
  : res (Profile File) * Global * list event * FileSystem :=
  if g_poisoned g then (Panic, g, [], fs)
  else
    let o := open_from_file_thr e w now sched (g_ctx g) fs q mode in
    (or_res o,
     mkGlobal (or_ctx o) (match or_res o with Panic => true | _ => false end),
     or_events o, or_fs o).

(** profile.rs:112-116 [read_header] (private, without callers): [read_header_thr] on the global context. *)
Definition read_header {H} (e : env) (w : world) (h : IOHandler H) (g : Global) (p : Profile H)
  : res unit * Profile H * Global * list event :=
  if g_poisoned g then (Panic, p, g, [])
  else
    let o := read_header_thr e w h (g_ctx g) p in
    (o_res o, o_profile o,
     mkGlobal (o_ctx o) (match o_res o with Panic => true | _ => false end), o_events o).
