(** Specification: how C lays out structures and unions, as rules, and what Little CMS's own headers give
    (the numbers asserted in /repo/tests/include/bindings.rs). *)
From Verif Require Import M_Base M_Layout.
Local Open Scope Z_scope.

(** [m] is the first multiple of [al] from [n] on. *)
Definition first_multiple (al n m : Z) : Prop :=
  (al | m) /\ n <= m /\ forall m', (al | m') -> n <= m' -> m <= m'.
Definition largest (m : Z) (l : list Z) : Prop := In m l /\ Forall (fun x => x <= m) l.

(** Fields of the given (size, alignment), one after the other from [off] on, each at the first place its
    alignment allows; the last ends at [e]. *)
Inductive placed : Z -> list (Z * Z) -> list Z -> Z -> Prop :=
| placed_nil off : placed off [] [] off
| placed_cons off s al fields o os e :
    first_multiple al off o -> placed (o + s) fields os e -> placed off ((s, al) :: fields) (o :: os) e.

(** A type with its size, alignment and the offsets of its fields. *)
Inductive c_layout (a8 : Z) : ty -> Z -> Z -> list Z -> Prop :=
| c_num n al : al = (if n =? 8 then a8 else n) -> c_layout a8 (Num n) n al []
| c_arr t n s al os : c_layout a8 t s al os -> c_layout a8 (Arr t n) (s * Z.of_nat n) al []
| c_struct l shapes al os e s :
    Forall2 (fun t sh => exists os', c_layout a8 t (fst sh) (snd sh) os') l shapes ->
    placed 0 shapes os e -> largest al (map snd shapes) -> first_multiple al e s ->
    c_layout a8 (Struct l) s al os
| c_union l shapes al m s :
    Forall2 (fun t sh => exists os', c_layout a8 t (fst sh) (snd sh) os') l shapes ->
    largest m (map fst shapes) -> largest al (map snd shapes) -> first_multiple al m s ->
    c_layout a8 (Union l) s al (map (fun _ => 0) l).

(** Types C can express: numbers of positive size, and no empty structure or union. *)
Fixpoint c_type (t : ty) : Prop :=
  match t with
  | Num n => 0 < n
  | Arr t _ => c_type t
  | Struct l | Union l => l <> [] /\ fold_right (fun t P => c_type t /\ P) True l
  end.

(** The bytes of a type that belong to some number; the others are padding. *)
Fixpoint content (t : ty) : Z :=
  match t with
  | Num n => n
  | Arr t n => content t * Z.of_nat n
  | Struct l => fold_right (fun t s => content t + s) 0 l
  | Union l => fold_right (fun t s => Z.max (content t) s) 0 l
  end.
Definition fields (t : ty) : list ty := match t with Struct l | Union l => l | _ => [] end.
Definition layout (a8 : Z) (t : ty) : Z * Z * list Z := (size a8 t, align a8 t, offsets a8 t).

(** bindings.rs:795-868, 875-918, 925-966, 990-1219, 1229-1273, 1282-1325: size, alignment, offsets. *)
Definition c_date_time : Z * Z * list Z := (12, 2, [0; 2; 4; 6; 8; 10]).
Definition c_encoded_xyz : Z * Z * list Z := (12, 4, [0; 4; 8]).
Definition c_profile_id : Z * Z * list Z := (16, 4, [0; 0; 0]).
Definition c_header : Z * Z * list Z :=
  (128, 8, [0; 4; 8; 12; 16; 20; 24; 36; 40; 44; 48; 52; 56; 64; 68; 80; 84; 100]).
Definition c_tag_entry : Z * Z * list Z := (12, 4, [0; 4; 8]).
Definition c_cie_xyz : Z * Z * list Z := (24, 8, [0; 8; 16]).
