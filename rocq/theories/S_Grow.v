(** Specification: opening a file that has not arrived completely yet (C105). *)
From Verif Require Import M_Base M_Signature M_Header M_Profile.

(** What a profile takes from the header. *)
Definition header_part {H} (p : Profile H) :=
  (p_created p, p_version p, (p_device_class p, p_color_space p, p_pcs p), p_rendering_intent p, p_flags p,
   (p_manufacturer p, p_model p, p_attributes p, p_creator p), p_profile_id p).
