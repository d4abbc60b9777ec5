(** C23-C26: signatures. *)
From Coq Require Import String.
From Verif Require Import M_Base M_Signature M_SigTables S_Bytes S_Text S_SigTables P_Signature.
Local Open Scope list_scope.

(** C23.  A slice of any length ... *)
Theorem C23_from_slice :
  forall l : list Z, are_bytes l -> sig_of_slice l = Ok (big_value (firstn 4 (l ++ [32; 32; 32; 32]))).
Proof. exact slice_four. Qed.
Print Assumptions C23_from_slice.

(** ... a string, by its UTF-8 bytes ... *)
Theorem C23_from_str :
  forall l : list Z, are_bytes l -> sig_of_str l = Ok (big_value (firstn 4 (l ++ [32; 32; 32; 32]))).
Proof. exact slice_four. Qed.
Print Assumptions C23_from_str.

(** ... arrays of one to three bytes, and of four. *)
Theorem C23_from_short_array :
  forall l : list Z, (length l <= 4)%nat -> are_bytes l -> sig_of_array_short (length l) l = sig_of_slice l.
Proof. exact (fun l L H => eq_trans (array_short_four l L H) (eq_sym (slice_four l H))). Qed.
Print Assumptions C23_from_short_array.

Theorem C23_from_four :
  forall l : list Z, length l = 4%nat -> are_bytes l ->
    Ok (sig_new l) = sig_of_slice l /\ Ok (sig_of_array4 l) = sig_of_slice l.
Proof.
  exact (fun l L H => conj (eq_trans (f_equal Ok (proj1 (new_four l L H))) (eq_sym (slice_four l H)))
                           (eq_trans (f_equal Ok (proj2 (new_four l L H))) (eq_sym (slice_four l H)))).
Qed.
Print Assumptions C23_from_four.

Example C23_examples :
  are_bytes [82; 71; 66] /\ sig_of_slice [82; 71; 66] = Ok 1380401696 (* "RGB " *) /\
  sig_of_slice [97; 99; 115; 112; 33] = Ok 1633907568 (* "acsp", the fifth byte dropped *) /\
  sig_of_slice [] = Ok 538976288 /\ sig_of_slice [] = Ok sig_default.
Proof. split; [repeat constructor; unfold is_byte; lia|]. vm_compute. auto. Qed.

(** C24 *)
Theorem C24_u32_round_trips :
  forall v : Z, sig_to_u32 (sig_of_u32 v) = v /\ sig_of_u32 (sig_to_u32 v) = v.
Proof. exact (fun v => conj eq_refl eq_refl). Qed.
Print Assumptions C24_u32_round_trips.

Theorem C24_bytes_round_trips :
  (forall s, is_uint 4 s -> sig_of_array4 (sig_to_bytes s) = s) /\
  (forall l, are_bytes l -> length l = 4%nat -> sig_to_bytes (sig_of_array4 l) = l).
Proof. exact (conj sig_bytes_back bytes_sig_back). Qed.
Print Assumptions C24_bytes_round_trips.

(** The bytes are the number's big-endian digits, so the two views agree. *)
Theorem C24_bytes_are_big_endian :
  forall s, sig_to_bytes s = big_enc 4 (sig_to_u32 s).
Proof. exact (P_Bytes.be_bytes_spec 4). Qed.
Print Assumptions C24_bytes_are_big_endian.

Theorem C24_equal_iff_same_bytes :
  forall a b, is_uint 4 a -> is_uint 4 b -> (sig_eqb a b = true <-> sig_to_bytes a = sig_to_bytes b).
Proof. exact sig_eq_bytes. Qed.
Print Assumptions C24_equal_iff_same_bytes.

Example C24_example : is_uint 4 1380401696 /\ sig_to_bytes 1380401696 = [82; 71; 66; 32] /\
  sig_eqb 1380401696 1380401697 = false /\ sig_to_bytes 1380401697 <> sig_to_bytes 1380401696.
Proof. split; [unfold is_uint; lia|]. vm_compute. repeat split; discriminate. Qed.

(** C25 *)
Theorem C25_string :
  forall s, is_uint 4 s ->
    (is_text (sig_to_bytes s) -> sig_to_string s = sig_to_bytes s /\ sig_of_str (sig_to_string s) = Ok s) /\
    (~ is_text (sig_to_bytes s) -> sig_to_string s = [32; 32; 32; 32] /\ sig_of_str (sig_to_string s) = Ok sig_default).
Proof. exact sig_string. Qed.
Print Assumptions C25_string.

(** The validity check used there is UTF-8 validity, on byte strings of any length. *)
Theorem C25_validation :
  forall l, are_bytes l -> (utf8_ok l = true <-> is_text l).
Proof. exact utf8_ok_iff. Qed.
Print Assumptions C25_validation.

(** Boundary cases: an encoded surrogate, an overlong form, a value past U+10FFFF are no text;
    U+FFFD and U+10FFFF are. *)
Example C25_examples :
  ~ is_text [237; 160; 128; 32] /\ ~ is_text [192; 128; 32; 32] /\ ~ is_text [244; 144; 128; 128] /\
  is_text [239; 191; 189; 32] /\ is_text [244; 143; 191; 191] /\
  sig_to_string (sig_new [237; 160; 128; 32]) = [32; 32; 32; 32] /\
  sig_to_string (sig_new [244; 143; 191; 191]) = [244; 143; 191; 191].
Proof.
  assert (B : forall l, forallb (fun b => (0 <=? b) && (b <? 256)) l = true -> are_bytes l).
  { intros l H. apply Forall_forall. rewrite forallb_forall in H. intros b Hb. specialize (H b Hb). unfold is_byte. lia. }
  repeat split; try (intros H; apply utf8_ok_iff in H; [discriminate H | now apply B]);
    try (apply utf8_ok_iff; [now apply B | reflexivity]).
Qed.

(** C26 *)
Theorem C26_constants_match :
  tbl_tag_type = reference c_tag_type /\ tbl_tag = reference c_tag /\
  tbl_color_space = reference c_color_space /\ tbl_profile_class = reference c_profile_class /\
  tbl_platform = reference c_platform /\ tbl_stage = reference c_stage /\
  tbl_curve_segment = reference c_curve_segment.
Proof. exact tables_match. Qed.
Print Assumptions C26_constants_match.

(** In the technology list all but the last agree; that one has its last two letters exchanged. *)
Theorem C26_technology_matches_but_one :
  removelast tbl_technology = removelast (reference c_technology) /\
  last tbl_technology (""%string, 0) = ("DIGITAL_CINEMA_PROJECTOR"%string, sig_new [100; 99; 112; 106]) /\
  last (reference c_technology) (""%string, 0) = ("DIGITAL_CINEMA_PROJECTOR"%string, sig_new [100; 99; 106; 112]).
Proof. exact technology_matches_but_one. Qed.
Print Assumptions C26_technology_matches_but_one.

Theorem C26_all_constants_match_refuted : tbl_technology <> reference c_technology.
Proof. exact (fun H => eq_ind (snd (last tbl_technology (""%string, 0))) (fun v => match v with 1684238442 => True | _ => False end) I _ (f_equal (fun t => snd (last t (""%string, 0))) H)). Qed.
Print Assumptions C26_all_constants_match_refuted.

Theorem C26_unambiguous :
  alias_free [] tbl_tag_type /\ alias_free tag_aliases tbl_tag /\ alias_free [] tbl_technology /\
  alias_free [] tbl_color_space /\ alias_free [] tbl_profile_class /\ alias_free [] tbl_platform /\
  alias_free [] tbl_stage /\ alias_free [] tbl_curve_segment /\ alias_free [] tbl_misc /\ alias_free [] tbl_plugin_type.
Proof. exact tables_unambiguous. Qed.
Print Assumptions C26_unambiguous.

Theorem C26_names_unique :
  NoDup (map fst tbl_tag_type) /\ NoDup (map fst tbl_tag) /\ NoDup (map fst tbl_technology) /\
  NoDup (map fst tbl_color_space) /\ NoDup (map fst tbl_profile_class) /\ NoDup (map fst tbl_platform) /\
  NoDup (map fst tbl_stage) /\ NoDup (map fst tbl_curve_segment) /\ NoDup (map fst tbl_misc) /\ NoDup (map fst tbl_plugin_type).
Proof. exact names_unique. Qed.
Print Assumptions C26_names_unique.

Example C26_sizes :
  length tbl_tag = 71%nat /\ length tbl_tag_type = 36%nat /\ length tbl_technology = 26%nat /\ length tbl_color_space = 43%nat /\
  In ("RED_COLORANT"%string, sig_new [114; 88; 89; 90]) tbl_tag /\
  In ("RED_MATRIX_COLUMN"%string, sig_new [114; 88; 89; 90]) tbl_tag.
Proof. repeat split; vm_compute; tauto. Qed.
