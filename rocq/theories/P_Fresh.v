(** A fresh profile; the private [read_header]; the constants that are macros in C. *)
From Coq Require Import String.
From Verif Require Import M_Base M_IO M_Signature M_SigTables M_Context M_Header M_FileFile M_Profile S_SigMisc S_Profile P_Open3.

Lemma misc_match : tbl_misc = by_name named_misc /\ tbl_plugin_type = by_name named_plugin_type.
Proof. split; vm_compute; reflexivity. Qed.
Lemma used_match :
  MAGIC_NUMBER = fourcc "acsp" /\
  [PT_MAGIC; PT_TRANSFORM; PT_INTERPOLATION; PT_TAG_TYPE; PT_TAG; PT_FORMATTERS; PT_RENDERING_INTENT; PT_PARAMETRIC_CURVE;
   PT_MULTI_PROCESS_ELEMENT; PT_OPTIMIZATION] = map snd (by_name named_plugin_type).
Proof. split; vm_compute; reflexivity. Qed.

Lemma nth_repeat_some {A} (x : A) n i : (i < n)%nat -> nth_error (repeat x n) i = Some x.
Proof. revert i. induction n; intros [|i] H; cbn; try lia; [reflexivity|]. apply IHn. lia. Qed.
Lemma fresh_signature H now n : @get_tag_signature H (profile_new now) n = Some sig_default.
Proof. unfold get_tag_signature. cbn [profile_new p_tag_count p_tag_names]. destruct n; reflexivity. Qed.
Lemma fresh_fields H now : let p := @profile_new H now in
  p_io p = None /\ p_created p = now /\ p_version p = 2 * 2 ^ 24 + 1 * 2 ^ 20 /\
  [p_device_class p; p_color_space p; p_pcs p] = [fourcc "    "; fourcc "    "; fourcc "    "] /\
  [p_rendering_intent p; p_flags p; p_manufacturer p; p_model p; p_attributes p; p_creator p] = [0; 0; 0; 0; 0; 0] /\
  (length (p_profile_id p) = 16%nat /\ forall b, In b (p_profile_id p) -> b = 0) /\
  p_tag_count p = 0%nat /\ p_is_write p = false /\
  (forall i, (i < 100)%nat ->
     nth_error (p_tag_names p) i = Some (fourcc "    ") /\ nth_error (p_tag_linked p) i = Some None /\
     nth_error (p_tag_sizes p) i = Some 0 /\ nth_error (p_tag_offsets p) i = Some 0 /\ nth_error (p_tag_save_as_raw p) i = Some false) /\
  (forall i, (100 <= i)%nat -> nth_error (p_tag_names p) i = None /\ nth_error (p_tag_linked p) i = None /\
     nth_error (p_tag_sizes p) i = None /\ nth_error (p_tag_offsets p) i = None /\ nth_error (p_tag_save_as_raw p) i = None).
Proof.
  cbn zeta. unfold profile_new. cbn [p_io p_created p_version p_device_class p_color_space p_pcs p_rendering_intent p_flags p_manufacturer
    p_model p_attributes p_creator p_profile_id p_tag_count p_is_write p_tag_names p_tag_linked p_tag_sizes p_tag_offsets p_tag_save_as_raw].
  repeat match goal with |- _ /\ _ => split end; try reflexivity.
  - intros b B. now apply repeat_spec in B.
  - intros i I. unfold MAX_TABLE_TAG. now rewrite !nth_repeat_some by exact I.
  - intros i I. repeat split; apply nth_error_None; rewrite repeat_length; exact I.
Qed.
Lemma fresh_no_header H e w (h : IOHandler H) c now : read_header_thr e w h c (profile_new now) = mkOut (Err InvalidData) (profile_new now) c [].
Proof. reflexivity. Qed.
Lemma read_header_after H e w (h : IOHandler H) past g fs p : past_calls e w past g fs ->
  (In Panic past -> read_header e w h g p = (Panic, p, g, [])) /\
  (~ In Panic past -> let o := read_header_thr e w h (context_new None) p in
     read_header e w h g p = (o_res o, o_profile o, mkGlobal (context_new None) (match o_res o with Panic => true | _ => false end), o_events o)).
Proof.
  intros PC. destruct (past_state e w past g fs PC) as (C & P). unfold read_header. rewrite C. split.
  - intros I. apply P in I. now rewrite I.
  - intros N. destruct (g_poisoned g); [now destruct (N (proj1 P eq_refl))|]. cbn zeta. now rewrite (read_header_quiet e w h (context_new None) p eq_refl).
Qed.
