(** Model of the layout rules behind [#[repr(C)]] at /repo/src/types/date_time_number.rs:5,
    encoded_xyz_number.rs:5, profile_id.rs:3, icc_header.rs:9, tag_entry.rs:7 and cie_xyz.rs:3, for types
    nested in any way. *)
From Verif Require Import M_Base M_Header.
Local Open Scope Z_scope.

(** Types as icc_header.rs:10-47 uses them.  [Num n] is a number of [n] bytes.  [Signature]
    (signature.rs:4) has no [repr] attribute; a structure of one [u32] has that number's size and alignment
    with every compiler so far, and icc_header.rs and tag_entry.rs rely on it. *)
Inductive ty :=
| Num (n : Z)
| Arr (t : ty) (n : nat)
| Struct (l : list ty)
| Union (l : list ty).

(** The alignment of numbers of eight bytes is that of the target, [a8]: 8, or 4 on 32-bit x86; the others
    are aligned to their size.  Applies at icc_header.rs:36. *)
Definition num_align (a8 n : Z) : Z := if n =? 8 then a8 else n.
(** The largest alignment among the fields (icc_header.rs:9, profile_id.rs:3). *)
Fixpoint align (a8 : Z) (t : ty) : Z :=
  match t with
  | Num n => num_align a8 n
  | Arr t _ => align a8 t
  | Struct l | Union l => fold_right (fun t m => Z.max (align a8 t) m) 1 l
  end.
(** The next multiple of the alignment (icc_header.rs:9). *)
Definition pad (off al : Z) : Z := off + (- off) mod al.
(** Where the fields of a structure go and where the last of them ends ([M_Header.repr_c] with the end;
    icc_header.rs:9). *)
Fixpoint place (off : Z) (fields : list (Z * Z)) : list Z * Z :=
  match fields with
  | [] => ([], off)
  | (s, al) :: r => let o := pad off al in let (os, e) := place (o + s) r in (o :: os, e)
  end.
(** icc_header.rs:9, profile_id.rs:3: the size is rounded up to the alignment. *)
Fixpoint size (a8 : Z) (t : ty) : Z :=
  match t with
  | Num n => n
  | Arr t n => size a8 t * Z.of_nat n
  | Struct l => pad (snd (place 0 (map (fun t => (size a8 t, align a8 t)) l))) (align a8 (Struct l))
  | Union l => pad (fold_right (fun t m => Z.max (size a8 t) m) 0 l) (align a8 (Union l))
  end.
(** icc_header.rs:9 and profile_id.rs:3: every field of a union is at its start. *)
Definition offsets (a8 : Z) (t : ty) : list Z :=
  match t with
  | Struct l => fst (place 0 (map (fun t => (size a8 t, align a8 t)) l))
  | Union l => map (fun _ => 0) l
  | _ => []
  end.

(** date_time_number.rs:6-13 *)
Definition t_date_time : ty := Struct [Num 2; Num 2; Num 2; Num 2; Num 2; Num 2].
(** encoded_xyz_number.rs:6-10 *)
Definition t_encoded_xyz : ty := Struct [Num 4; Num 4; Num 4].
(** profile_id.rs:4-8 *)
Definition t_profile_id : ty := Union [Arr (Num 1) 16; Arr (Num 2) 8; Arr (Num 4) 4].
(** signature.rs:4 *)
Definition t_signature : ty := Struct [Num 4].
(** icc_header.rs:10-47 *)
Definition t_header : ty :=
  Struct [Num 4; t_signature; Num 4; t_signature; t_signature; t_signature; t_date_time; t_signature;
          t_signature; Num 4; t_signature; Num 4; Num 8; Num 4; t_encoded_xyz; t_signature; t_profile_id;
          Arr (Num 1) 28].
(** tag_entry.rs:8-15 *)
Definition t_tag_entry : ty := Struct [t_signature; Num 4; Num 4].
(** cie_xyz.rs:4-8 *)
Definition t_cie_xyz : ty := Struct [Num 8; Num 8; Num 8].
(** The unions icc_header.rs:49-52 and tag_entry.rs:17-20 (without [repr], but no other place than the
    start is left for the fields when the sizes agree). *)
Definition t_header_converter : ty := Union [t_header; Arr (Num 1) 128].
(** tag_entry.rs:17-20 *)
Definition t_tag_converter : ty := Union [t_tag_entry; Arr (Num 1) 12].
