(** C94-C95.  Debugging texts of structures, plug-ins, chunks and handlers; error codes. *)
From Coq Require Import String.
From Verif Require Import M_Base M_Signature M_Context M_Header M_Curve M_FileNull M_FileMem M_Debug M_Show S_Bytes S_Text S_Debug S_Header S_Show P_Show P_Show2.
Local Open Scope list_scope.
Local Open Scope Z_scope.

(** However values are nested, their text ends where the value ends and determines it: nothing else could
    have been written there, on one line ... *)
Theorem C94_readable : forall u v v' s s', well_formed v -> well_formed v' -> ends s -> ends s' ->
  compact u v ++ s = compact u v' ++ s' -> v = v' /\ s = s'.
Proof. exact (fun u v v' s s' W W' S S' E => compact_reads u v W v' s s' W' S S' E). Qed.
Print Assumptions C94_readable.

(** ... and in the indented form. *)
Theorem C94_readable_pretty : forall u v v' s s', well_formed v -> well_formed v' -> ends s -> ends s' ->
  pretty u v ++ s = pretty u v' ++ s' -> v = v' /\ s = s'.
Proof. exact (fun u v v' s s' W W' S S' E => pretty_reads u v W v' s s' W' S S' E). Qed.
Print Assumptions C94_readable_pretty.

(** [{:?}] never writes a line break. *)
Theorem C94_one_line : forall u v, well_formed v -> ~ In 10 (compact u v).
Proof. exact compact_one_line. Qed.
Print Assumptions C94_one_line.

(** Headers, tag entries, dates and colours that differ have different texts. *)
Theorem C94_header : tells header_wf show_header /\ tells tag_wf show_tag_entry /\ tells (fun _ => True) show_date /\ tells (fun _ => True) show_xyz.
Proof. exact header_tells. Qed.
Print Assumptions C94_header.

(** So have the parts of plug-ins that are not functions ... *)
Theorem C94_plugins :
  tells (fun _ => True) show_curves /\
  tells (fun t : Signature * Z * list Signature => is_uint 4 (fst (fst t)) /\ Forall (is_uint 4) (snd t)) (fun t => show_tag_item (fst (fst t)) (snd (fst t)) (snd t)) /\
  tells (fun t : Signature * Z => is_uint 4 (fst t)) (fun t => show_type_handler (fst t) (snd t)) /\
  tells (fun t : Signature * list Z => is_uint 4 (fst t) /\ is_text (snd t)) (fun t => show_intent (fst t) (snd t)) /\
  tells (fun _ => True) show_factory.
Proof. exact (conj curves_tell (conj tag_items_tell (conj type_handlers_tell (conj intents_tell factories_tell)))). Qed.
Print Assumptions C94_plugins.

(** ... and alarm codes, handlers (with the same kind of buffer) and error codes. *)
Theorem C94_state :
  tells (fun _ => True) show_alarm_codes /\ tells (fun _ => True) show_null /\ (forall g, tells (fun f => growable f = g) show_mem) /\ tells (fun _ => True) show_error.
Proof. exact (conj alarms_tell (conj nulls_tell (conj mems_tell errors_tell))). Qed.
Print Assumptions C94_state.

(** Signatures and identifiers are written as C69 and C70 say. *)
Theorem C94_signatures : forall u,
  (forall s, is_uint 4 s -> compact u (show_sig s) = sig_debug u s /\ pretty u (show_sig s) = sig_debug_pretty u s) /\
  (forall p, are_bytes p -> compact u (show_id p) = profile_id_debug u p /\ pretty u (show_id p) = profile_id_debug_pretty u p).
Proof. exact (fun u => conj (sig_texts u) (id_texts u)). Qed.
Print Assumptions C94_signatures.

(** Not every text names the type: the interpolation chunk is announced as the error chunk, whose text is
    the same, and an item of the intents list lacks a letter. *)
Theorem C94_names_refuted : forall u,
  (compact u show_interpolation_chunk = compact u show_log_error_chunk /\ pretty u show_interpolation_chunk = pretty u show_log_error_chunk) /\
  names_type show_log_error_chunk "LogErrorChunk" /\ ~ names_type show_interpolation_chunk "InterpolationPluginChunk" /\
  ~ names_type (show_intent 0 []) "IntentsListItem" /\ (forall h, names_type (show_header h) "ICCHeader") /\ (forall l, names_type (show_alarm_codes l) "AlarmCodesChunk").
Proof. exact (fun u => conj (chunks_confused u) chunk_names). Qed.
Print Assumptions C94_names_refuted.

Example C94_tag_entry :
  let t := mkTag 1668313716 128 20 in
  tag_wf t /\
  compact all_shown (show_tag_entry t) = text "TagEntry { sig: Signature { value: " ++ dq ++ text "cprt" ++ dq ++ text " }, offset: 128, size: 20 }" /\
  pretty all_shown (show_tag_entry t) =
    text "TagEntry {" ++ nl ++ text "    sig: Signature {" ++ nl ++ text "        value: " ++ dq ++ text "cprt" ++ dq ++ text "," ++ nl ++
    text "    }," ++ nl ++ text "    offset: 128," ++ nl ++ text "    size: 20," ++ nl ++ text "}".
Proof. exact tag_entry_texts. Qed.
Example C94_xyz : compact all_shown (show_xyz (mkEXYZ 63190 (-65536) 0)) = text "EncodedXYZNumber { x: 63190, y: -65536, z: 0 }".
Proof. exact xyz_text. Qed.
Example C94_handlers : compact all_shown (show_null (mkNull 3 10)) = text "FileNull { pointer: 3, used_space: 10 }" /\
  pretty all_shown (show_mem (mkMem true [] 5)) = text "FileMem {" ++ nl ++ text "    cursor: Cursor {" ++ nl ++ text "        inner: []," ++ nl ++ text "        pos: 5," ++ nl ++ text "    }," ++ nl ++ text "}".
Proof. exact null_text. Qed.
(** The texts of the other types ([quote]: back quotes stand for double quotes). *)
Example C94_texts :
  compact all_shown (show_header (header_from_bytes pc_env srgb_bytes)) = quote
    "ICCHeader { size: 60960, cmm_id: Signature { value: `\0\0\0\0` }, version: 69206016, device_class: Signature { value: `spac` }, color_space: Signature { value: `RGB ` }, pcs: Signature { value: `Lab ` }, date: DateTimeNumber { year: 2007, month: 7, day: 25, hours: 0, minutes: 5, seconds: 37 }, magic: Signature { value: `acsp` }, platform: Signature { value: `\0\0\0\0` }, flags: 0, manufacturer: Signature { value: `\0\0\0\0` }, model: 0, attributes: 0, rendering_intent: 0, illuminant: EncodedXYZNumber { x: 63190, y: 65536, z: 54061 }, creator: Signature { value: `\0\0\0\0` }, profile_id: ProfileID { value: ` 34  56  2a  bf  99  4c  cd   6  6d  2c  57  21  d0  d6  8c  5d ` }, reserved: [0, 0, 0, 0, 0, 0, 0, 0, 0, 0, 0, 0, 0, 0, 0, 0, 0, 0, 0, 0, 0, 0, 0, 0, 0, 0, 0, 0] }" /\
  compact all_shown (show_curves [mkCurve (-1) 1; mkCurve 108 5]) = quote
    "ParametricCurves { curves: [Curve { function_curve_id: -1, parameter_count: 1 }, Curve { function_curve_id: 108, parameter_count: 5 }], evaluator: `[Function Ptr]` }" /\
  compact all_shown (show_tag_item 1668313716 1 [1668313716; 0]) = quote
    "TagListItem { signature: Signature { value: `cprt` }, descriptor: TagDescriptor { element_count: 1, supported_types: [Signature { value: `cprt` }, Signature { value: `\0\0\0\0` }], decide_type: `[Function Ptr]` } }" /\
  compact all_shown (show_type_handler 1668313716 4) = quote
    "TypeHandler { signature: Signature { value: `cprt` }, icc_version: 4, read: `[Function Ptr]`, write: `[Function Ptr]` }" /\
  compact all_shown (show_intent 0 (text "Perceptual")) = quote
    "IntentListItem { intent: Signature { value: `\0\0\0\0` }, description: `Perceptual`, link: `[Function Ptr]` }" /\
  compact all_shown (show_factory false) = quote "Legacy(`[Function Ptr]`)" /\ compact all_shown (show_factory true) = quote "Modern(`[Function Ptr]`)" /\
  compact all_shown show_optimization = quote "OptimizationCollectionItem { optimize_ptr: `[Function Ptr]` }" /\
  compact all_shown show_interpolation_chunk = quote "LogErrorChunk { handler: `[Function Pointer]` }" /\
  compact all_shown (show_alarm_codes default_alarm_codes) = quote
    "AlarmCodesChunk { alarm_codes: [32512, 32512, 32512, 0, 0, 0, 0, 0, 0, 0, 0, 0, 0, 0, 0, 0] }" /\
  compact all_shown (show_mem (mkMem true [1; 255] 5)) = quote "FileMem { cursor: Cursor { inner: [1, 255], pos: 5 } }" /\
  pretty all_shown (show_factory true) = text "Modern(" ++ nl ++ quote "    `[Function Ptr]`," ++ nl ++ text ")" /\
  pretty all_shown (show_mem (mkMem true [1; 255] 5)) =
    text "FileMem {" ++ nl ++ text "    cursor: Cursor {" ++ nl ++ text "        inner: [" ++ nl ++ text "            1," ++ nl ++
    text "            255," ++ nl ++ text "        ]," ++ nl ++ text "        pos: 5," ++ nl ++ text "    }," ++ nl ++ text "}".
Proof. exact more_texts. Qed.

(** Error codes have Little CMS's numbers, one each, without gaps. *)
Theorem C95_numbers :
  (forall u c n, show_error c = SName n -> compact u (show_error c) = text n /\ nth_error error_names (Z.to_nat (error_number c)) = Some n) /\
  (forall c, 0 <= error_number c < 14) /\ (forall n, 0 <= n < 14 -> exists c, error_number c = n) /\
  (forall a b, (error_number a = error_number b <-> a = b) /\ (error_eqb a b = true <-> a = b)).
Proof. exact (conj error_text (conj (fun c => proj2 (proj2 (error_table all_shown c))) (conj error_all error_numbers))). Qed.
Print Assumptions C95_numbers.

(** Their order is total, agrees with equality, and is the order of the numbers. *)
Theorem C95_order : forall a b c,
  (error_cmp a b = Eq <-> a = b) /\ (error_cmp a b = Lt <-> error_cmp b a = Gt) /\ (error_cmp a b = Lt -> error_cmp b c = Lt -> error_cmp a c = Lt) /\
  (error_cmp a b = Lt <-> error_number a < error_number b).
Proof. exact error_order. Qed.
Print Assumptions C95_order.

Example C95_case : show_error EC_ColorSpaceCheck = SName "ColorSpaceCheck" /\ error_number EC_ColorSpaceCheck = 9 /\ error_cmp EC_File EC_Seek = Lt.
Proof. now split. Qed.
