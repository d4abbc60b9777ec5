(** Specification: the texts of dates, floats, profiles and contexts. *)
From Coq Require Import String.
From Flocq Require Import IEEE754.BinarySingleNaN.
From Verif Require Import M_Base M_F64 M_Signature M_Context M_Header M_Profile M_Show M_Show2 S_Bytes S_Decimal S_Header S_Profile S_Show.
Local Open Scope list_scope.
Local Open Scope Z_scope.

(** [n] in exactly [w] digits. *)
Definition fixed (w : nat) (n : Z) (l : list Z) : Prop :=
  List.length l = w /\ Forall (fun c => 48 <= c <= 57) l /\ read_decimal l = n.
(** ISO 8601: 2026-11-16T14:15:00, for the years it writes with four digits. *)
Definition iso8601 (d : NaiveDateTime) (l : list Z) : Prop :=
  exists y m dd h mi s, l = y ++ text "-" ++ m ++ text "-" ++ dd ++ text "T" ++ h ++ text ":" ++ mi ++ text ":" ++ s /\
    fixed 4 (nd_year d) y /\ fixed 2 (nd_month d) m /\ fixed 2 (nd_day d) dd /\ fixed 2 (nd_hour d) h /\ fixed 2 (nd_min d) mi /\ fixed 2 (nd_sec d) s.

(** chrono's dates: any second can have up to two seconds' worth of nanoseconds. *)
Definition chrono_nd (d : NaiveDateTime) : Prop := real_nd d /\ 0 <= nd_nano d < 2000000000.
(** Leap seconds only where the clock has them. *)
Definition proper_nd (d : NaiveDateTime) : Prop := chrono_nd d /\ (nd_nano d < 1000000000 \/ nd_sec d = 59).

(** Digits for finite floats: a number with a point or an exponent, a different one for each float (zeros by sign). *)
Definition finite_text (fl : f64 -> list Z) : Prop :=
  (forall x, is_finite x = true -> atom (fl x) /\ fl x <> text "-inf") /\
  (forall x y, is_finite x = true -> is_finite y = true -> fl x = fl y -> x = y).

(** Fields in the range of their types. *)
Definition profile_wf {H} (p : Profile H) : Prop :=
  proper_nd (p_created p) /\ is_uint 4 (p_device_class p) /\ is_uint 4 (p_color_space p) /\ is_uint 4 (p_pcs p) /\ are_bytes (p_profile_id p) /\
  Forall (is_uint 4) (p_tag_names p) /\ Forall (fun o => forall s, o = Some s -> is_uint 4 s) (p_tag_linked p).

(** What a reader sees of a context: everything but which functions handle errors and interpolate. *)
Definition visible (it : item_texts) (c : Context) :=
  (c_user_data c, c_alarm_codes c, c_adaption_state c,
   (map (i_curves it) (c_curves c), map (i_formatters it) (c_formatters c), map (i_tag_types it) (c_tag_types c), map (i_tags it) (c_tags c)),
   (map (i_intents it) (c_intents c), map (i_tag_types it) (c_mpe_types c), map (i_optimizations it) (c_optimizations c), map (i_transforms it) (c_transforms c))).
Definition items_wf (it : item_texts) : Prop :=
  forall n, well_formed (i_curves it n) /\ well_formed (i_formatters it n) /\ well_formed (i_tag_types it n) /\ well_formed (i_tags it n) /\
    well_formed (i_intents it n) /\ well_formed (i_optimizations it n) /\ well_formed (i_transforms it n).
