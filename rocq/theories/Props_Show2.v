(** C101.  Debugging texts of dates, profiles, contexts and floating-point structures. *)
From Coq Require Import String.
From Flocq Require Import IEEE754.BinarySingleNaN.
From Verif Require Import M_Base M_F64 M_Signature M_Context M_Header M_Profile M_FileFile M_FileNull M_Debug M_Show M_Show2 S_Bytes S_Header S_Profile S_Show S_Show2
  P_Show2 P_Show3 P_Show4 Props_Endian Props_Profile.
Local Open Scope list_scope.
Local Open Scope Z_scope.

(** A whole second of the years 0 to 9999 is written as in ISO 8601, which determines it. *)
Theorem C101_date_iso : forall u d, real_nd d -> 0 <= nd_year d <= 9999 -> nd_nano d = 0 ->
  iso8601 d (compact u (show_nd d)) /\ pretty u (show_nd d) = compact u (show_nd d) /\
  forall d', nd_nano d' = 0 -> iso8601 d' (compact u (show_nd d)) -> d' = d.
Proof.
  exact (fun u d R Y N => let H := nd_iso d u R Y N in
    conj (proj1 H) (conj (proj2 H) (fun d' N' I => iso_unique d' d _ (eq_trans N' (eq_sym N)) I (proj1 H)))).
Qed.
Print Assumptions C101_date_iso.

(** Dates that differ have different texts, with leap seconds at the end of a minute, whatever the year ... *)
Theorem C101_dates : tells proper_nd show_nd.
Proof. exact nds_tell. Qed.
Print Assumptions C101_dates.

(** ... but not all dates chrono allows: it has leap seconds elsewhere, which look like the next second. *)
Theorem C101_all_dates_refuted : exists d d', chrono_nd d /\ chrono_nd d' /\ d <> d' /\ show_nd d = show_nd d'.
Proof. exact leap_confused. Qed.
Print Assumptions C101_all_dates_refuted.

(** The text of a profile determines the profile up to [==] and the text of its handler, and is determined
    by them. *)
Theorem C101_profiles : forall (H : Type) (io : H -> shown) u (a b : Profile H), (forall h, well_formed (io h)) -> profile_wf a -> profile_wf b ->
  (compact u (show_profile io a) = compact u (show_profile io b) <-> profile_eqb a b = true /\ option_map io (p_io a) = option_map io (p_io b)) /\
  (pretty u (show_profile io a) = pretty u (show_profile io b) <-> profile_eqb a b = true /\ option_map io (p_io a) = option_map io (p_io b)).
Proof. exact @profile_texts. Qed.
Print Assumptions C101_profiles.

(** New and opened profiles are such profiles; the text fits inside others. *)
Theorem C101_profiles_hold :
  (forall e w now sched ctx fs q d p, openable fs q d -> or_res (open_from_file_thr e w now sched ctx fs q ModeRead) = Ok p -> profile_wf p) /\
  (forall H now, proper_nd now -> profile_wf (@profile_new H now)) /\
  (forall H (io : H -> shown) p, (forall h, p_io p = Some h -> well_formed (io h)) -> profile_wf p -> well_formed (show_profile io p)).
Proof. exact (conj opened_wf (conj (@new_wf) (@wf_profile))). Qed.
Print Assumptions C101_profiles_hold.

(** The text of a context tells everything but the error handler and the interpolation factory, as far as
    the texts of its plug-ins tell it; other contexts do not look the same. *)
Theorem C101_contexts : forall fl it u a b, finite_text fl -> items_wf it ->
  (compact u (show_context fl it a) = compact u (show_context fl it b) <-> visible it a = visible it b) /\
  (pretty u (show_context fl it a) = pretty u (show_context fl it b) <-> visible it a = visible it b).
Proof. exact context_texts. Qed.
Print Assumptions C101_contexts.

(** Colours and adaptation states that differ - a sign of zero included - have different texts. *)
Theorem C101_floats : forall fl, finite_text fl ->
  tells (fun _ => True) (fun p : f64 * f64 * f64 => show_ciexyz fl (fst (fst p)) (snd (fst p)) (snd p)) /\ tells (fun _ => True) (show_adaption fl).
Proof. exact ciexyz_tells. Qed.
Print Assumptions C101_floats.

(** Concrete texts. *)
Example C101_date_cases :
  proper_nd (mkND 2026 11 16 14 15 59 1500000000) /\
  chrono_date (mkND 2026 11 16 14 15 59 1500000000) = text "2026-11-16" /\ chrono_time (mkND 2026 11 16 14 15 59 1500000000) = text "14:15:60.500" /\
  compact all_shown (show_nd (mkND 2021 1 2 3 4 5 0)) = text "2021-01-02T03:04:05" /\
  compact all_shown (show_nd (mkND 65535 12 31 23 59 59 250000)) = text "+65535-12-31T23:59:59.000250" /\
  compact all_shown (show_nd (mkND (-5) 3 1 0 0 0 7)) = text "-0005-03-01T00:00:00.000000007".
Proof.
  split; [|vm_compute; repeat split; reflexivity].
  repeat split; try (cbn; lia); try (exists 30; split; [constructor|cbn; lia]). 
Qed.
Example C101_new_profile : forall (H : Type) (io : H -> shown), proper_nd (mkND 2026 1 2 3 4 5 6) /\ compact all_shown (show_profile io (profile_new (mkND 2026 1 2 3 4 5 6))) = new_profile_text.
Proof.
  intros H io. split; [|exact (new_profile_shown io)].
  repeat split; try (cbn; lia); try (exists 31; split; [constructor|cbn; lia]).
Qed.
Definition srgb_start : list Z := text
  "Profile { io: Some(FileNull { pointer: 240, used_space: 60960 }), created: 2007-07-25T00:05:37, version: 69206016, device_class: Signature { value: ""spac"" }, color_space: Signature { value: ""RGB "" }, pcs: Signature { value: ""Lab "" }, rendering_intent: 0, flags: 0, manufacturer: 0, model: 0, attributes: 0, creator: 0, profile_id: ProfileID { value: "" 34  56  2a  bf  99  4c  cd   6  6d  2c  57  21  d0  d6  8c  5d "" }, tag_count: 9, tag_names: [Signature { value: ""desc"" }, Signature { value: ""A2B0"" }, ".
Definition file_shown (f : File) : shown := show_null (mkNull (f_pos f) (Z.of_nat (List.length (f_data f)))).
Example C101_srgb : (forall f, well_formed (file_shown f)) /\
  match or_res (open_disk pc [] srgb_file) with
  | Ok p => firstn (List.length srgb_start) (compact all_shown (show_profile file_shown p)) = srgb_start
  | _ => False
  end.
Proof. split; [intros f; unfold file_shown, show_null; wfs; exact I|]. vm_compute. reflexivity. Qed.

Definition plain_items : item_texts := mkItems (fun _ => fn_ptr) (fun _ => fn_ptr) (fun _ => fn_ptr) (fun _ => fn_ptr) (fun _ => fn_ptr) (fun _ => fn_ptr) (fun _ => fn_ptr).
Example C101_context_new : forall fl it, fl (f64_lit 1 0) = text "1.0" -> compact all_shown (show_context fl it (context_new (Some [7; 255]))) = new_text.
Proof. exact fresh_text. Qed.
Example C101_context_case : finite_text some_digits /\ items_wf plain_items /\
  (forall c h, visible plain_items (mkCtx (c_user_data c) h (c_alarm_codes c) (c_adaption_state c) h (c_curves c) (c_formatters c) (c_tag_types c) (c_tags c) (c_intents c) (c_mpe_types c)
     (c_optimizations c) (c_transforms c)) = visible plain_items c) /\
  visible plain_items (context_new None) <> visible plain_items (context_new (Some [])).
Proof. split; [exact some_digits_text|]. split; [repeat split; exact wf_fn_ptr|]. split; [reflexivity|discriminate]. Qed.
Definition numbered : item_texts := let f n := SNum (Z.of_nat n) in mkItems f f f f f f f.
Definition busy_text : list Z := text
  "Context { user_data: None, error_handler: LogErrorChunk { handler: ""[Function Pointer]"" }, alarm_codes: AlarmCodesChunk { alarm_codes: [5] }, adaption_state: AdaptionStateChunk { adaption_state: NaN }, interpolation_plugin: LogErrorChunk { handler: ""[Function Pointer]"" }, curves_plugin: CurvesPluginChunk { parametric_curves: [1, 2] }, formatters_plugin: FormattersPluginChunk { factory_list: [3] }, tag_types_plugin: TagTypePluginChunk { tag_types: [4] }, tags_plugin: TagPluginChunk { tags: [6] }, intents_plugin: IntentsPluginChunk { intents: [7] }, mpe_types_plugin: TagTypePluginChunk { tag_types: [8] }, optimization_plugin: OptimizationPluginChunk { optimization_collection: [9] }, transform_plugin: TransformPluginChunk { transform_collection: [10] } }".
Example C101_context_plugins : forall fl, items_wf numbered /\
  compact all_shown (show_context fl numbered (mkCtx None 11 [5%Z] B754_nan 12 [1; 2] [3] [4] [6] [7] [8] [9] [10])%nat) = busy_text.
Proof. intros fl. split; [repeat split|vm_compute; reflexivity]. Qed.
Example C101_ciexyz : forall fl, fl (f64_lit 1 0) = text "1.0" ->
  compact all_shown (show_ciexyz fl (f64_lit 1 0) B754_nan (B754_infinity true)) = text "CIEXYZ { X: 1.0, Y: NaN, Z: -inf }".
Proof.
  intros fl F. assert (A : show_float fl (f64_lit 1 0) = SAtom (text "1.0")) by (rewrite <- F; reflexivity). unfold show_ciexyz. rewrite A. vm_compute. reflexivity.
Qed.
