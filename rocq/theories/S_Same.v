(** Specification: when two opened profiles compare equal. *)
From Verif Require Import M_Base M_Header.

(** The header fields that identify a profile. The declared size, the preferred CMM, the platform, the
    illuminant and the reserved bytes are not among them. *)
Definition same_identity (a b : ICCHeader) : Prop :=
  h_version a = h_version b /\ h_device_class a = h_device_class b /\ h_color_space a = h_color_space b /\
  h_pcs a = h_pcs b /\ h_date a = h_date b /\ h_rendering_intent a = h_rendering_intent b /\
  h_flags a = h_flags b /\ h_manufacturer a = h_manufacturer b /\ h_model a = h_model b /\
  h_attributes a = h_attributes b /\ h_creator a = h_creator b /\ h_profile_id a = h_profile_id b.
