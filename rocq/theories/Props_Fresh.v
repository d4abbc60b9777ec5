(** C26 (the constants that are macros in C) and C86 (a fresh profile, the private [read_header]). *)
From Coq Require Import String.
From Verif Require Import M_Base M_IO M_Signature M_SigTables M_Context M_Header M_FileFile M_Profile S_SigMisc S_Profile P_Fresh.

Theorem C26_macro_constants : tbl_misc = by_name named_misc /\ tbl_plugin_type = by_name named_plugin_type.
Proof. exact misc_match. Qed.
Print Assumptions C26_macro_constants.

(** The copies used by the code that opens profiles and registers plugins. *)
Theorem C26_constants_in_use :
  MAGIC_NUMBER = fourcc "acsp" /\
  [PT_MAGIC; PT_TRANSFORM; PT_INTERPOLATION; PT_TAG_TYPE; PT_TAG; PT_FORMATTERS; PT_RENDERING_INTENT; PT_PARAMETRIC_CURVE;
   PT_MULTI_PROCESS_ELEMENT; PT_OPTIMIZATION] = map snd (by_name named_plugin_type).
Proof. exact used_match. Qed.
Print Assumptions C26_constants_in_use.

(** C86.  [Profile::new] describes an empty version 2.1 profile. *)
Theorem C86_fresh_profile :
  forall H now, let p := @profile_new H now in
  p_io p = None /\ p_created p = now /\ p_version p = 2 * 2 ^ 24 + 1 * 2 ^ 20 /\
  [p_device_class p; p_color_space p; p_pcs p] = [fourcc "    "; fourcc "    "; fourcc "    "] /\
  [p_rendering_intent p; p_flags p; p_manufacturer p; p_model p; p_attributes p; p_creator p] = [0; 0; 0; 0; 0; 0] /\
  (length (p_profile_id p) = 16%nat /\ forall b, In b (p_profile_id p) -> b = 0) /\
  p_tag_count p = 0%nat /\ p_is_write p = false /\
  (forall i, (i < 100)%nat ->
     nth_error (p_tag_names p) i = Some (fourcc "    ") /\ nth_error (p_tag_linked p) i = Some None /\
     nth_error (p_tag_sizes p) i = Some 0 /\ nth_error (p_tag_offsets p) i = Some 0 /\ nth_error (p_tag_save_as_raw p) i = Some false) /\
  (forall i, (100 <= i)%nat -> nth_error (p_tag_names p) i = None /\ nth_error (p_tag_linked p) i = None /\
     nth_error (p_tag_sizes p) i = None /\ nth_error (p_tag_offsets p) i = None /\ nth_error (p_tag_save_as_raw p) i = None).
Proof. exact fresh_fields. Qed.
Print Assumptions C86_fresh_profile.

Theorem C86_fresh_accessors :
  forall H now, @get_io_handler H (profile_new now) = None /\ @get_tag_count H (profile_new now) = 0%nat /\
    forall n, @get_tag_signature H (profile_new now) n = Some (fourcc "    ").
Proof. exact (fun H now => conj eq_refl (conj eq_refl (fresh_signature H now))). Qed.
Print Assumptions C86_fresh_accessors.

(** Without a handler there is nothing to read: an error, and no change. *)
Theorem C86_no_handler :
  forall H e w (h : IOHandler H) c now,
    read_header_thr e w h c (profile_new now) = mkOut (Err InvalidData) (profile_new now) c [].
Proof. exact fresh_no_header. Qed.
Print Assumptions C86_no_handler.

(** [read_header] panics for ever once a call with the global context has panicked; before that it is [read_header_thr] on a
    context that is still the initial one, and it poisons the lock iff it panics. *)
Theorem C86_read_header :
  forall H e w (h : IOHandler H) past g fs p, past_calls e w past g fs ->
  (In Panic past -> read_header e w h g p = (Panic, p, g, [])) /\
  (~ In Panic past -> let o := read_header_thr e w h (context_new None) p in
     read_header e w h g p = (o_res o, o_profile o, mkGlobal (context_new None) (match o_res o with Panic => true | _ => false end), o_events o)).
Proof. exact read_header_after. Qed.
Print Assumptions C86_read_header.

Example C86_first_call : forall H e w (h : IOHandler H) now, past_calls e w [] global_init (mkFS (fun _ => None) (fun _ => true) (fun _ => true)) /\
  read_header e w h global_init (profile_new now) = (Err InvalidData, profile_new now, global_init, []).
Proof. intros. split; [constructor|reflexivity]. Qed.
