(** Specification: the ICC profile header (ICC.1, clause 7.2) and tag table entry (clause 7.3), with the
    offsets written out. *)
From Verif Require Import S_Bytes M_Header.

Section Order.
  (** byte order of the file: [false] is the ICC's big-endian *)
  Context (little : bool).
  Definition word (b : list Z) (off width : nat) : Z := wire_value little (firstn width (skipn off b)).
  (** two's complement *)
  Definition sword (b : list Z) (off : nat) : Z :=
    let v := word b off 4 in if v <? 2147483648 then v else v - 4294967296.

  Definition decode_header (b : list Z) : ICCHeader := {|
    h_size := word b 0 4;
    h_cmm_id := word b 4 4;
    h_version := word b 8 4;
    h_device_class := word b 12 4;
    h_color_space := word b 16 4;
    h_pcs := word b 20 4;
    h_date := {| dt_year := word b 24 2; dt_month := word b 26 2; dt_day := word b 28 2;
                 dt_hours := word b 30 2; dt_minutes := word b 32 2; dt_seconds := word b 34 2 |};
    h_magic := word b 36 4;
    h_platform := word b 40 4;
    h_flags := word b 44 4;
    h_manufacturer := word b 48 4;
    h_model := word b 52 4;
    h_attributes := word b 56 8;
    h_rendering_intent := word b 64 4;
    h_illuminant := {| ex_x := sword b 68; ex_y := sword b 72; ex_z := sword b 76 |};
    h_creator := word b 80 4;
    h_profile_id := firstn 16 (skipn 84 b);
    h_reserved := firstn 28 (skipn 100 b)
  |}.

  Definition decode_tag (b : list Z) : TagEntry :=
    {| t_sig := word b 0 4; t_offset := word b 4 4; t_size := word b 8 4 |}.
End Order.

(** Values the Rust types can hold. *)
Definition is_i32 (v : Z) : Prop := -2147483648 <= v < 2147483648.
Definition date_wf (d : DateTimeNumber) : Prop :=
  is_uint 2 (dt_year d) /\ is_uint 2 (dt_month d) /\ is_uint 2 (dt_day d) /\
  is_uint 2 (dt_hours d) /\ is_uint 2 (dt_minutes d) /\ is_uint 2 (dt_seconds d).
Definition header_wf (h : ICCHeader) : Prop :=
  is_uint 4 (h_size h) /\ is_uint 4 (h_cmm_id h) /\ is_uint 4 (h_version h) /\ is_uint 4 (h_device_class h) /\
  is_uint 4 (h_color_space h) /\ is_uint 4 (h_pcs h) /\ date_wf (h_date h) /\ is_uint 4 (h_magic h) /\
  is_uint 4 (h_platform h) /\ is_uint 4 (h_flags h) /\ is_uint 4 (h_manufacturer h) /\ is_uint 4 (h_model h) /\
  is_uint 8 (h_attributes h) /\ is_uint 4 (h_rendering_intent h) /\
  (is_i32 (ex_x (h_illuminant h)) /\ is_i32 (ex_y (h_illuminant h)) /\ is_i32 (ex_z (h_illuminant h))) /\
  is_uint 4 (h_creator h) /\
  (are_bytes (h_profile_id h) /\ length (h_profile_id h) = 16%nat) /\
  (are_bytes (h_reserved h) /\ length (h_reserved h) = 28%nat).
Definition tag_wf (t : TagEntry) : Prop := is_uint 4 (t_sig t) /\ is_uint 4 (t_offset t) /\ is_uint 4 (t_size t).

(** The Gregorian calendar. *)
Definition leap_year (y : Z) : Prop := (4 | y) /\ (~ (100 | y) \/ (400 | y)).
Inductive days_in (y : Z) : Z -> Z -> Prop :=
| dJan : days_in y 1 31 | dFebL : leap_year y -> days_in y 2 29 | dFeb : ~ leap_year y -> days_in y 2 28
| dMar : days_in y 3 31 | dApr : days_in y 4 30 | dMay : days_in y 5 31 | dJun : days_in y 6 30
| dJul : days_in y 7 31 | dAug : days_in y 8 31 | dSep : days_in y 9 30 | dOct : days_in y 10 31
| dNov : days_in y 11 30 | dDec : days_in y 12 31.
Definition real_date (y m d : Z) : Prop := exists n, days_in y m n /\ 1 <= d <= n.
Definition real_time (h mi s : Z) : Prop := 0 <= h <= 23 /\ 0 <= mi <= 59 /\ 0 <= s <= 59.
Definition real_dt (d : DateTimeNumber) : Prop :=
  real_date (dt_year d) (dt_month d) (dt_day d) /\ real_time (dt_hours d) (dt_minutes d) (dt_seconds d).
(** A value of chrono's [NaiveDateTime]. *)
Definition real_nd (d : NaiveDateTime) : Prop :=
  -262144 <= nd_year d <= 262143 /\ real_date (nd_year d) (nd_month d) (nd_day d) /\ real_time (nd_hour d) (nd_min d) (nd_sec d).
