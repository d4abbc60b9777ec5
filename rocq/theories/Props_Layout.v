(** C93.  The layout of the structures shared with C and with profile files. *)
From Verif Require Import M_Base M_Header M_Layout S_Layout P_Layout.
Local Open Scope Z_scope.

(** The layout computed for a type is the one C's rules give, and the rules give one only. *)
Theorem C93_rules : forall a8 t, 0 < a8 -> c_type t ->
  c_layout a8 t (size a8 t) (align a8 t) (offsets a8 t) /\
  forall s al os, c_layout a8 t s al os -> s = size a8 t /\ al = align a8 t /\ os = offsets a8 t.
Proof. exact layout_only. Qed.
Print Assumptions C93_rules.

(** In any structure each field is aligned, lies inside, and ends before the next one begins. *)
Theorem C93_room : forall a8 l, 0 < a8 -> c_type (Struct l) ->
  length (offsets a8 (Struct l)) = length l /\
  (forall i, (i < length l)%nat -> 0 <= nth i (offsets a8 (Struct l)) 0 /\
     (align a8 (nth i l (Num 1)) | nth i (offsets a8 (Struct l)) 0) /\
     nth i (offsets a8 (Struct l)) 0 + size a8 (nth i l (Num 1)) <= size a8 (Struct l)) /\
  (forall i j, (i < j < length l)%nat -> nth i (offsets a8 (Struct l)) 0 + size a8 (nth i l (Num 1)) <= nth j (offsets a8 (Struct l)) 0).
Proof. exact struct_room. Qed.
Print Assumptions C93_room.

(** Size, alignment and offsets are those Little CMS's own declarations have ... *)
Theorem C93_same_as_c :
  layout 8 t_date_time = c_date_time /\ layout 8 t_encoded_xyz = c_encoded_xyz /\ layout 8 t_profile_id = c_profile_id /\
  layout 8 t_header = c_header /\ layout 8 t_tag_entry = c_tag_entry /\ layout 8 t_cie_xyz = c_cie_xyz.
Proof. exact crate_layouts. Qed.
Print Assumptions C93_same_as_c.

(** ... and where eight-byte numbers are aligned to four, only the alignment of two of them differs. *)
Theorem C93_other_targets :
  layout 4 t_date_time = c_date_time /\ layout 4 t_encoded_xyz = c_encoded_xyz /\ layout 4 t_profile_id = c_profile_id /\
  layout 4 t_header = (fst (fst c_header), 4, snd c_header) /\ layout 4 t_tag_entry = c_tag_entry /\
  layout 4 t_cie_xyz = (fst (fst c_cie_xyz), 4, snd c_cie_xyz).
Proof. exact crate_layouts_4. Qed.
Print Assumptions C93_other_targets.

(** The byte arrays of the two converters are as large as the structures they are read as, neither
    structure has padding, and the header fields are read from these offsets,
    with the sizes and alignments these types have. *)
Theorem C93_converters : forall a8, a8 = 4 \/ a8 = 8 ->
  (size a8 t_header_converter = 128 /\ size a8 t_header = 128 /\ content t_header = 128) /\
  (size a8 t_tag_converter = 12 /\ size a8 t_tag_entry = 12 /\ content t_tag_entry = 12) /\
  (forall k, Z.of_nat (header_offset k) = nth k (offsets a8 t_header) 0) /\
  header_fields = map (fun t => (size 8 t, align 8 t)) (fields t_header).
Proof. exact crate_converters. Qed.
Print Assumptions C93_converters.

(** The rule that places the header fields is that of every structure. *)
Theorem C93_header_rule : forall a8 l, repr_c 0 (map (fun t => (size a8 t, align a8 t)) l) = offsets a8 (Struct l).
Proof. exact header_rule. Qed.
Print Assumptions C93_header_rule.

(** The types of the crate are types of C; a structure that does have padding. *)
Example C93_types : Forall c_type [t_date_time; t_encoded_xyz; t_profile_id; t_header; t_tag_entry; t_cie_xyz; t_header_converter; t_tag_converter].
Proof. exact crate_c_types. Qed.
Example C93_padded : c_type (Struct [Num 1; Num 8; Num 2]) /\
  layout 8 (Struct [Num 1; Num 8; Num 2]) = (24, 8, [0; 8; 16]) /\ layout 4 (Struct [Num 1; Num 8; Num 2]) = (16, 4, [0; 4; 12]) /\
  content (Struct [Num 1; Num 8; Num 2]) = 11.
Proof. exact padded_layout. Qed.
