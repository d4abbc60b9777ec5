(** Specification: a client that writes a profile file with the crate's calls, and what opening it must give. *)
From Verif Require Import S_Bytes S_Header M_Base M_IO M_Header M_Profile S_Profile.
Local Open Scope list_scope.
Local Open Scope Z_scope.

(** The client: the header's bytes, the number of tags, the entries, the tag data. *)
Fixpoint save_entries {S} (e : env) (io : IOHandler S) (ts : list TagEntry) (s : S) : res unit * S :=
  match ts with
  | [] => (Ok tt, s)
  | t :: r => bind (io_write io s (tag_to_bytes e t)) (fun _ s' => save_entries e io r s')
  end.
Definition save {S} (e : env) (io : IOHandler S) (h : ICCHeader) (ts : list TagEntry) (data : list Z) (s : S)
  : res unit * S :=
  bind (io_write io s (header_to_bytes e h)) (fun _ s1 =>
  bind (write_u32 e io (Z.of_nat (List.length ts)) s1) (fun _ s2 =>
  bind (save_entries e io ts s2) (fun _ s3 =>
  io_write io s3 data))).

(** The profile with header [h] and tag table [ts]. *)
Definition profile_with {H} (h : ICCHeader) (ts : list TagEntry) (io : option H) : Profile H := {|
  p_io := io;
  p_created := spec_date (h_date h);
  p_version := h_version h;
  p_device_class := h_device_class h;
  p_color_space := h_color_space h;
  p_pcs := h_pcs h;
  p_rendering_intent := h_rendering_intent h;
  p_flags := h_flags h;
  p_manufacturer := h_manufacturer h;
  p_model := h_model h;
  p_attributes := h_attributes h;
  p_creator := h_creator h;
  p_profile_id := h_profile_id h;
  p_tag_count := List.length ts;
  p_tag_names := pad 538976288 (map t_sig ts);
  p_tag_linked := pad None (links ts);
  p_tag_sizes := pad 0 (map t_size ts);
  p_tag_offsets := pad 0 (map t_offset ts);
  p_tag_save_as_raw := repeat false 100;
  p_is_write := false
|}.

Definition saved_length (ts : list TagEntry) (data : list Z) : Z := 132 + 12 * Z.of_nat (List.length ts) + Z.of_nat (List.length data).
