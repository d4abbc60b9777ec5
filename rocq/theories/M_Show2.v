(** Model of the [Debug] texts of [Profile], [Context], [CIEXYZ] and [AdaptionStateChunk], and of chrono's for
    the date inside a profile. *)
From Coq Require Import String.
From Flocq Require Import IEEE754.BinarySingleNaN.
From Verif Require Import M_Base M_F64 M_Signature M_Context M_Header M_Profile M_FileNull M_FileMem M_Debug M_Show.
Local Open Scope list_scope.
Local Open Scope Z_scope.

(** [{:0w}] of a number that is not negative; the formats in [chrono_date] and [chrono_time]. *)
Definition zero_padded (w : nat) (n : Z) : list Z := repeat 48 (w - List.length (decimal n)) ++ decimal n.
(** chrono 0.4.19 [impl Debug for NaiveDate]: [{:04}-{:02}-{:02}], the year [{:+05}] outside 0..=9999.
    Reached from profile.rs:22. *)
Definition chrono_date (d : NaiveDateTime) : list Z :=
  (if (0 <=? nd_year d) && (nd_year d <=? 9999) then zero_padded 4 (nd_year d)
   else [if nd_year d <? 0 then 45 else 43] ++ zero_padded 4 (Z.abs (nd_year d)))
  ++ text "-" ++ zero_padded 2 (nd_month d) ++ text "-" ++ zero_padded 2 (nd_day d).
(** chrono 0.4.19 [impl Debug for NaiveTime]: [{:02}:{:02}:{:02}], then the fraction in three, six or nine
    digits; a leap second is shown as one more second.  Reached from profile.rs:22. *)
Definition chrono_time (d : NaiveDateTime) : list Z :=
  let leap := 1000000000 <=? nd_nano d in
  let sec := if leap then nd_sec d + 1 else nd_sec d in
  let nano := if leap then nd_nano d - 1000000000 else nd_nano d in
  zero_padded 2 (nd_hour d) ++ text ":" ++ zero_padded 2 (nd_min d) ++ text ":" ++ zero_padded 2 sec
  ++ (if nano =? 0 then []
      else if nano mod 1000000 =? 0 then text "." ++ zero_padded 3 (nano / 1000000)
      else if nano mod 1000 =? 0 then text "." ++ zero_padded 6 (nano / 1000)
      else text "." ++ zero_padded 9 nano).
(** chrono 0.4.19 [impl Debug for NaiveDateTime]: [{:?}T{:?}]; profile.rs:22. *)
Definition show_nd (d : NaiveDateTime) : shown := SAtom (chrono_date d ++ text "T" ++ chrono_time d).

(** std's [Debug for f64]; [fl]: its choice of digits for a finite number, e.g. [1.0] or [1e22].
    cie_xyz.rs:4-8, adaption_state.rs:1-4. *)
Definition show_float (fl : f64 -> list Z) (x : f64) : shown :=
  match x with
  | B754_nan => SName "NaN"
  | B754_infinity s => if s then SAtom (text "-inf") else SName "inf"
  | _ => SAtom (fl x)
  end.
(** cie_xyz.rs:2-8 *)
Definition show_ciexyz (fl : f64 -> list Z) (x y z : f64) : shown :=
  SStruct "CIEXYZ" [("X"%string, show_float fl x); ("Y"%string, show_float fl y); ("Z"%string, show_float fl z)].
(** adaption_state.rs:1-4 *)
Definition show_adaption (fl : f64 -> list Z) (x : f64) : shown := SStruct "AdaptionStateChunk" [("adaption_state"%string, show_float fl x)].

(** The derived [Debug for Option] and [Debug for bool]; profile.rs:21, 36, 39-40. *)
Definition show_option {A} (f : A -> shown) (o : option A) : shown := match o with None => SName "None" | Some a => STuple "Some" [f a] end.
(** profile.rs:39-40 *)
Definition show_bool (b : bool) : shown := SName (if b then "true" else "false").
(** profile.rs:19-41; [io]: the text of the handler in the box ([Debug] is a supertrait of [IOHandler]). *)
Definition show_profile {H} (io : H -> shown) (p : Profile H) : shown :=
  SStruct "Profile"
    [("io"%string, show_option io (p_io p)); ("created"%string, show_nd (p_created p)); ("version"%string, SNum (p_version p));
     ("device_class"%string, show_sig (p_device_class p)); ("color_space"%string, show_sig (p_color_space p)); ("pcs"%string, show_sig (p_pcs p));
     ("rendering_intent"%string, SNum (p_rendering_intent p)); ("flags"%string, SNum (p_flags p)); ("manufacturer"%string, SNum (p_manufacturer p));
     ("model"%string, SNum (p_model p)); ("attributes"%string, SNum (p_attributes p)); ("creator"%string, SNum (p_creator p));
     ("profile_id"%string, show_id (p_profile_id p)); ("tag_count"%string, SNum (Z.of_nat (p_tag_count p)));
     ("tag_names"%string, SList (map show_sig (p_tag_names p))); ("tag_linked"%string, SList (map (show_option show_sig) (p_tag_linked p)));
     ("tag_sizes"%string, SList (map SNum (p_tag_sizes p))); ("tag_offsets"%string, SList (map SNum (p_tag_offsets p)));
     ("tag_save_as_raw"%string, SList (map show_bool (p_tag_save_as_raw p))); ("is_write"%string, show_bool (p_is_write p))].

(** The texts of the plug-ins stored in a context; para_curve.rs:18-25, formatter.rs, tag_type.rs:31-40, tag.rs:8-12,
    intent.rs:24-32, optimization.rs:14-20, transform.rs:56-63. *)
Record item_texts := mkItems {
  i_curves : fnptr -> shown; i_formatters : fnptr -> shown; i_tag_types : fnptr -> shown; i_tags : fnptr -> shown;
  i_intents : fnptr -> shown; i_optimizations : fnptr -> shown; i_transforms : fnptr -> shown
}.
(** chunks/parametric_curves.rs:3-6, chunks/formatters.rs:3-6 and so on: a structure around a vector. *)
Definition show_chunk (name field : string) (f : fnptr -> shown) (l : list fnptr) : shown := SStruct name [(field, SList (map f l))].
(** context.rs:23-38 *)
Definition show_context (fl : f64 -> list Z) (it : item_texts) (c : Context) : shown :=
  SStruct "Context"
    [("user_data"%string, show_option (fun d => SList (map SNum d)) (c_user_data c)); ("error_handler"%string, show_log_error_chunk);
     ("alarm_codes"%string, show_alarm_codes (c_alarm_codes c)); ("adaption_state"%string, show_adaption fl (c_adaption_state c));
     ("interpolation_plugin"%string, show_interpolation_chunk);
     ("curves_plugin"%string, show_chunk "CurvesPluginChunk" "parametric_curves" (i_curves it) (c_curves c));
     ("formatters_plugin"%string, show_chunk "FormattersPluginChunk" "factory_list" (i_formatters it) (c_formatters c));
     ("tag_types_plugin"%string, show_chunk "TagTypePluginChunk" "tag_types" (i_tag_types it) (c_tag_types c));
     ("tags_plugin"%string, show_chunk "TagPluginChunk" "tags" (i_tags it) (c_tags c));
     ("intents_plugin"%string, show_chunk "IntentsPluginChunk" "intents" (i_intents it) (c_intents c));
     ("mpe_types_plugin"%string, show_chunk "TagTypePluginChunk" "tag_types" (i_tag_types it) (c_mpe_types c));
     ("optimization_plugin"%string, show_chunk "OptimizationPluginChunk" "optimization_collection" (i_optimizations it) (c_optimizations c));
     ("transform_plugin"%string, show_chunk "TransformPluginChunk" "transform_collection" (i_transforms it) (c_transforms c))].
