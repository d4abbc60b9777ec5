(** Model of /repo/src/types/{date_time_number,encoded_xyz_number,icc_header,tag_entry,profile_id}.rs. *)
From Verif Require Import M_Base M_Endian M_Signature.

(** date_time_number.rs:6-13 *)
Record DateTimeNumber := mkDT {
  dt_year : Z; dt_month : Z; dt_day : Z; dt_hours : Z; dt_minutes : Z; dt_seconds : Z
}.

(** The part of [chrono::NaiveDateTime] (0.4.19, /repo/Cargo.lock:24-26) the code looks at: calendar
    fields of a valid date and time; [nd_nano] may reach 1_999_999_999 for a leap second. *)
Record NaiveDateTime := mkND {
  nd_year : Z; nd_month : Z; nd_day : Z; nd_hour : Z; nd_min : Z; nd_sec : Z; nd_nano : Z
}.

(** chrono 0.4.19 [NaiveDate::from_ymd_opt]: year range, then the month/day table lookup
    ([Mdf::new] sends month > 12 and day > 31 to 0, which the table rejects; the table itself encodes the
    Gregorian month lengths selected by the year's leap flag). *)
Definition chrono_leap (y : Z) : bool :=
  (y mod 4 =? 0) && (negb (y mod 100 =? 0) || (y mod 400 =? 0)).
(** Called from date_time_number.rs:17 through [from_ymd]. *)
Definition chrono_month_len (y m : Z) : Z :=
  if m =? 2 then (if chrono_leap y then 29 else 28)
  else if (m =? 4) || (m =? 6) || (m =? 9) || (m =? 11) then 30 else 31.
(** Called from date_time_number.rs:17. *)
Definition chrono_ymd_ok (y m d : Z) : bool :=
  (-262144 <=? y) && (y <=? 262143) &&
  (1 <=? m) && (m <=? 12) && (1 <=? d) && (d <=? chrono_month_len y m).

(** chrono [NaiveTime::from_hms_opt] *)
Definition chrono_hms_ok (h mi s : Z) : bool := (h <? 24) && (mi <? 60) && (s <? 60).

(** date_time_number.rs:15-23: [NaiveDate::from_ymd(..).and_hms(..)]; both panic ([None]) on
    invalid input. *)
Definition dt_to_naive (d : DateTimeNumber) : option NaiveDateTime :=
  if chrono_ymd_ok (dt_year d) (dt_month d) (dt_day d)
  then if chrono_hms_ok (dt_hours d) (dt_minutes d) (dt_seconds d)
       then Some (mkND (dt_year d) (dt_month d) (dt_day d)
                       (dt_hours d) (dt_minutes d) (dt_seconds d) 0)
       else None
  else None.

(** chrono [Datelike::year_ce]: (is CE, year of era). *)
Definition year_ce (y : Z) : bool * Z := if y <? 1 then (false, 1 - y) else (true, y).

(** date_time_number.rs:24-38; [as u16] truncates. *)
Definition naive_to_dt (d : NaiveDateTime) : DateTimeNumber :=
  let year := snd (year_ce (nd_year d)) in
  mkDT (year mod 2 ^ 16) (nd_month d mod 2 ^ 16) (nd_day d mod 2 ^ 16)
       (nd_hour d mod 2 ^ 16) (nd_min d mod 2 ^ 16) (nd_sec d mod 2 ^ 16).

(** encoded_xyz_number.rs:6-10: three [S15F16 = i32] (/repo/src/lib.rs:41). *)
Record EncodedXYZ := mkEXYZ { ex_x : Z; ex_y : Z; ex_z : Z }.

(** icc_header.rs:10-47 (field order as declared; [profile_id] is the union of profile_id.rs:4-8
    seen as its 16 bytes [id8]). *)
Record ICCHeader := mkHdr {
  h_size : Z; h_cmm_id : Signature; h_version : Z; h_device_class : Signature;
  h_color_space : Signature; h_pcs : Signature; h_date : DateTimeNumber; h_magic : Signature;
  h_platform : Signature; h_flags : Z; h_manufacturer : Signature; h_model : Z;
  h_attributes : Z; h_rendering_intent : Z; h_illuminant : EncodedXYZ; h_creator : Signature;
  h_profile_id : list Z; h_reserved : list Z
}.

(** The [repr(C)] layout algorithm: each field goes to the next multiple of its alignment.
    Cf. applied to icc_header.rs:10-47. *)
Fixpoint repr_c (off : Z) (fields : list (Z * Z)) : list Z :=
  match fields with
  | [] => []
  | (size, align) :: r =>
      let o := off + (- off) mod align in
      o :: repr_c (o + size) r
  end.

(** (size, alignment) of the fields of [ICCHeader] in declaration order (icc_header.rs:12-46):
    [DateTimeNumber] is 6 u16, [EncodedXYZNumber] 3 i32, [ProfileID] 16 bytes aligned to 4. *)
Definition header_fields : list (Z * Z) :=
  [(4,4); (4,4); (4,4); (4,4); (4,4); (4,4); (12,2); (4,4); (4,4); (4,4); (4,4); (4,4);
   (8,8); (4,4); (12,4); (4,4); (16,4); (28,1)].
(** icc_header.rs:10-47. *)
Definition header_offset (k : nat) : nat := Z.to_nat (nth k (repr_c 0 header_fields) 0).

(** [bytes[off .. off+n]] of the object representation.
    Cf. icc_header.rs:49-52. *)
Definition slice (off n : nat) (l : list Z) : list Z := firstn n (skipn off l).

(** Native-endian integer fields of the object representation.
    Cf. icc_header.rs:49-52. *)
Definition ne_at (e : env) (bytes : list Z) (off n : nat) : Z := ne_val e (slice off n bytes).

(** icc_header.rs:49-52,97-99: reading [converter.value] after writing [converter.bytes]. *)
Definition header_of_repr (e : env) (b : list Z) : ICCHeader :=
  let f := header_offset in
  mkHdr (ne_at e b (f 0%nat) 4) (ne_at e b (f 1%nat) 4) (ne_at e b (f 2%nat) 4)
        (ne_at e b (f 3%nat) 4) (ne_at e b (f 4%nat) 4) (ne_at e b (f 5%nat) 4)
        (let d := f 6%nat in
         mkDT (ne_at e b d 2) (ne_at e b (d + 2) 2) (ne_at e b (d + 4) 2)
              (ne_at e b (d + 6) 2) (ne_at e b (d + 8) 2) (ne_at e b (d + 10) 2))
        (ne_at e b (f 7%nat) 4) (ne_at e b (f 8%nat) 4) (ne_at e b (f 9%nat) 4)
        (ne_at e b (f 10%nat) 4) (ne_at e b (f 11%nat) 4) (ne_at e b (f 12%nat) 8)
        (ne_at e b (f 13%nat) 4)
        (let x := f 14%nat in
         mkEXYZ (u32_to_i32 (ne_at e b x 4)) (u32_to_i32 (ne_at e b (x + 4) 4))
                (u32_to_i32 (ne_at e b (x + 8) 4)))
        (ne_at e b (f 15%nat) 4)
        (slice (f 16%nat) 16 b) (slice (f 17%nat) 28 b).

(** icc_header.rs:102-106: reading [converter.bytes] after writing [converter.value].  The layout has
    no padding (see [P_Header.header_no_padding]), so the bytes are the fields' bytes in order. *)
Definition header_to_repr (e : env) (h : ICCHeader) : list Z :=
  let w2 := ne_bytes e 2 in let w4 := ne_bytes e 4 in let w8 := ne_bytes e 8 in
  w4 (h_size h) ++ w4 (h_cmm_id h) ++ w4 (h_version h) ++ w4 (h_device_class h) ++
  w4 (h_color_space h) ++ w4 (h_pcs h) ++
  w2 (dt_year (h_date h)) ++ w2 (dt_month (h_date h)) ++ w2 (dt_day (h_date h)) ++
  w2 (dt_hours (h_date h)) ++ w2 (dt_minutes (h_date h)) ++ w2 (dt_seconds (h_date h)) ++
  w4 (h_magic h) ++ w4 (h_platform h) ++ w4 (h_flags h) ++ w4 (h_manufacturer h) ++
  w4 (h_model h) ++ w8 (h_attributes h) ++ w4 (h_rendering_intent h) ++
  w4 (i32_to_u32 (ex_x (h_illuminant h))) ++ w4 (i32_to_u32 (ex_y (h_illuminant h))) ++
  w4 (i32_to_u32 (ex_z (h_illuminant h))) ++
  w4 (h_creator h) ++ h_profile_id h ++ h_reserved h.

(** icc_header.rs:77-91: [transmute] to u32, adjust, [transmute] back. *)
Definition adjust_i32 (e : env) (x : Z) : Z := u32_to_i32 (adjust_int e 4 (i32_to_u32 x)).

(** icc_header.rs:55-95 [swap_endianness] *)
Definition header_swap (e : env) (h : ICCHeader) : ICCHeader :=
  let a2 := adjust_int e 2 in let a4 := adjust_int e 4 in let a8 := adjust_int e 8 in
  mkHdr (a4 (h_size h))
        (sig_of_u32 (a4 (sig_to_u32 (h_cmm_id h))))
        (a4 (h_version h))
        (sig_of_u32 (a4 (sig_to_u32 (h_device_class h))))
        (sig_of_u32 (a4 (sig_to_u32 (h_color_space h))))
        (sig_of_u32 (a4 (sig_to_u32 (h_pcs h))))
        (mkDT (a2 (dt_year (h_date h))) (a2 (dt_month (h_date h))) (a2 (dt_day (h_date h)))
              (a2 (dt_hours (h_date h))) (a2 (dt_minutes (h_date h))) (a2 (dt_seconds (h_date h))))
        (sig_of_u32 (a4 (sig_to_u32 (h_magic h))))
        (sig_of_u32 (a4 (sig_to_u32 (h_platform h))))
        (a4 (h_flags h))
        (sig_of_u32 (a4 (sig_to_u32 (h_manufacturer h))))
        (a4 (h_model h))
        (a8 (h_attributes h))
        (a4 (h_rendering_intent h))
        (mkEXYZ (adjust_i32 e (ex_x (h_illuminant h))) (adjust_i32 e (ex_y (h_illuminant h)))
                (adjust_i32 e (ex_z (h_illuminant h))))
        (sig_of_u32 (a4 (sig_to_u32 (h_creator h))))
        (h_profile_id h) (h_reserved h).

(** icc_header.rs:96-101 and 102-107 *)
Definition header_from_bytes (e : env) (b : list Z) : ICCHeader := header_swap e (header_of_repr e b).
(** icc_header.rs:102-107. *)
Definition header_to_bytes (e : env) (h : ICCHeader) : list Z := header_to_repr e (header_swap e h).

(** tag_entry.rs:8-15: three u32-sized fields, offsets 0, 4, 8. *)
Record TagEntry := mkTag { t_sig : Signature; t_offset : Z; t_size : Z }.

(** tag_entry.rs:17-20 union, both directions. *)
Definition tag_of_repr (e : env) (b : list Z) : TagEntry :=
  mkTag (ne_at e b 0 4) (ne_at e b 4 4) (ne_at e b 8 4).
(** tag_entry.rs:17-20, 38-43. *)
Definition tag_to_repr (e : env) (t : TagEntry) : list Z :=
  ne_bytes e 4 (t_sig t) ++ ne_bytes e 4 (t_offset t) ++ ne_bytes e 4 (t_size t).

(** tag_entry.rs:23-31 *)
Definition tag_swap (e : env) (t : TagEntry) : TagEntry :=
  mkTag (sig_of_u32 (adjust_int e 4 (sig_to_u32 (t_sig t))))
        (adjust_int e 4 (t_offset t)) (adjust_int e 4 (t_size t)).

(** tag_entry.rs:32-37 and 38-43 *)
Definition tag_from_bytes (e : env) (b : list Z) : TagEntry := tag_swap e (tag_of_repr e b).
(** tag_entry.rs:38-43. *)
Definition tag_to_bytes (e : env) (t : TagEntry) : list Z := tag_to_repr e (tag_swap e t).
