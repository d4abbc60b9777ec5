{
 "claims": [
  {
   "property": "C01",
   "status": "proved",
   "theorems": [
    "C01_int_helpers_are_involutions",
    "C01_array_helpers_are_involutions"
   ],
   "note": ""
  },
  {
   "property": "C02",
   "status": "proved",
   "theorems": [
    "C02_int_helpers_give_wire_order",
    "C02_array_helpers_give_wire_value",
    "C02_int_and_array_helpers_agree",
    "C02_wire_spec_is_a_bijection"
   ],
   "note": ""
  },
  {
   "property": "C03",
   "status": "proved",
   "theorems": [
    "C03_typed_writes_give_wire_bytes",
    "C03_wire_bytes_have_size_and_value",
    "C03_typed_reads_take_wire_value"
   ],
   "note": ""
  },
  {
   "property": "C04",
   "status": "proved",
   "theorems": [
    "C04_streams_are_portable",
    "C04_needs_equal_feature"
   ],
   "note": ""
  },
  {
   "property": "C05",
   "status": "proved",
   "theorems": [
    "C05_round_trip",
    "C05_stream_content"
   ],
   "note": ""
  },
  {
   "property": "C06",
   "status": "proved",
   "theorems": [
    "C06_fixed_write_that_fits"
   ],
   "note": ""
  },
  {
   "property": "C07",
   "status": "proved",
   "theorems": [
    "C07_fixed_write_overflow",
    "C07_fixed_write_never_panics"
   ],
   "note": ""
  },
  {
   "property": "C08",
   "status": "proved",
   "theorems": [
    "C08_memory_read_is_exact"
   ],
   "note": ""
  },
  {
   "property": "C09",
   "status": "proved",
   "theorems": [
    "C09_memory_seek_is_exact_or_rejected"
   ],
   "note": ""
  },
  {
   "property": "C10",
   "status": "proved",
   "theorems": [
    "C10_reported_size_of_memory_file",
    "C10_memory_position_neutral",
    "C10_reported_size_of_file",
    "C10_position_neutral_on_32bit_refuted"
   ],
   "note": "The 32-bit exception is part of the statement; the _refuted theorem shows position neutrality fails there."
  },
  {
   "property": "C11",
   "status": "proved",
   "theorems": [
    "C11_growable_memory_refines_abstract_file"
   ],
   "note": ""
  },
  {
   "property": "C12",
   "status": "proved",
   "theorems": [
    "C12_write_u16_array_is_elementwise",
    "C12_read_u16_array_is_elementwise",
    "C12_in_order_is_deterministic"
   ],
   "note": "C12_in_order_is_deterministic shows the specification relation fixes the outcome."
  },
  {
   "property": "C13",
   "status": "proved",
   "theorems": [
    "C13_f32_bits_survive_conversion",
    "C13_f32_transfer_is_bit_exact"
   ],
   "note": ""
  },
  {
   "property": "C14",
   "status": "proved",
   "theorems": [
    "C14_decoding_is_exact",
    "C14_decoding_panics_only_on_min",
    "C14_read_s15f16_decodes_the_word"
   ],
   "note": ""
  },
  {
   "property": "C15",
   "status": "proved",
   "theorems": [
    "C15_encoding_rounds_half_up_and_saturates",
    "C15_the_one_exception",
    "C15_special_values"
   ],
   "note": ""
  },
  {
   "property": "C16",
   "status": "proved",
   "theorems": [
    "C16_every_word_survives",
    "C16_every_value_in_range_survives_up_to_rounding",
    "C16_xyz_round_trip"
   ],
   "note": ""
  },
  {
   "property": "C17",
   "status": "proved",
   "theorems": [
    "C17_typed_integer_reads_give_zero",
    "C17_typed_real_reads_give_zero",
    "C17_raw_read_leaves_buffer",
    "C17_raw_read_delivers_zeros_refuted"
   ],
   "note": ""
  },
  {
   "property": "C18",
   "status": "proved",
   "theorems": [
    "C18_null_seek",
    "C18_null_read_and_write",
    "C18_null_seek_cases",
    "C18_starts_empty"
   ],
   "note": "Includes the before-the-start behaviour."
  },
  {
   "property": "C19",
   "status": "proved",
   "theorems": [
    "C19_null_file_is_a_dry_run",
    "C19_empty_write_refuted"
   ],
   "note": ""
  },
  {
   "property": "C20",
   "status": "proved",
   "theorems": [
    "C20_file_read_is_schedule_independent",
    "C20_file_read_never_writes_or_panics"
   ],
   "note": ""
  },
  {
   "property": "C21",
   "status": "proved",
   "theorems": [
    "C21_file_write_is_schedule_independent",
    "C21_failed_write_stores_a_prefix"
   ],
   "note": ""
  },
  {
   "property": "C22",
   "status": "proved",
   "theorems": [
    "C22_disk_and_memory_are_interchangeable",
    "C22_memory_and_disk_are_interchangeable",
    "C22_empty_write_refuted"
   ],
   "note": "64-bit targets."
  },
  {
   "property": "C23",
   "status": "proved",
   "theorems": [
    "C23_from_slice",
    "C23_from_str",
    "C23_from_short_array",
    "C23_from_four"
   ],
   "note": ""
  },
  {
   "property": "C24",
   "status": "proved",
   "theorems": [
    "C24_u32_round_trips",
    "C24_bytes_round_trips",
    "C24_bytes_are_big_endian",
    "C24_equal_iff_same_bytes"
   ],
   "note": ""
  },
  {
   "property": "C25",
   "status": "proved",
   "theorems": [
    "C25_string",
    "C25_validation"
   ],
   "note": ""
  },
  {
   "property": "C26",
   "status": "proved",
   "theorems": [
    "C26_macro_constants",
    "C26_constants_in_use",
    "C26_constants_match",
    "C26_technology_matches_but_one",
    "C26_all_constants_match_refuted",
    "C26_unambiguous",
    "C26_names_unique"
   ],
   "note": "The miscellaneous and plug-in type constants have no counterpart in the bindings; only uniqueness is proved for them."
  },
  {
   "property": "C27",
   "status": "proved",
   "theorems": [
    "C27_decode_then_encode",
    "C27_encode_then_decode"
   ],
   "note": ""
  },
  {
   "property": "C28",
   "status": "proved",
   "theorems": [
    "C28_fields_at_icc_offsets",
    "C28_decoded_fields_in_range",
    "C28_host_independent"
   ],
   "note": ""
  },
  {
   "property": "C29",
   "status": "proved",
   "theorems": [
    "C29_tag_entry_fields",
    "C29_tag_entry_bijection"
   ],
   "note": ""
  },
  {
   "property": "C30",
   "status": "proved",
   "theorems": [
    "C30_real_dates_convert",
    "C30_other_dates_panic"
   ],
   "note": ""
  },
  {
   "property": "C31",
   "status": "proved",
   "theorems": [
    "C31_icc_date_there_and_back",
    "C31_icc_date_unchanged_iff",
    "C31_calendar_date_to_icc",
    "C31_calendar_date_there_and_back"
   ],
   "note": ""
  },
  {
   "property": "C32",
   "status": "proved",
   "theorems": [
    "C32_one_verdict",
    "C32_open_delivers_the_verdict",
    "C32_success_iff",
    "C32_with_failing_reads",
    "C32_no_such_file"
   ],
   "note": ""
  },
  {
   "property": "C33",
   "status": "proved",
   "theorems": [
    "C33_tags_inside_the_file"
   ],
   "note": ""
  },
  {
   "property": "C34",
   "status": "proved",
   "theorems": [
    "C34_panics_iff",
    "C34_read_failures_cause_no_panic",
    "C34_never_panics_refuted"
   ],
   "note": ""
  },
  {
   "property": "C35",
   "status": "proved",
   "theorems": [
    "C35_handler_calls",
    "C35_wrong_magic",
    "C35_too_many_tags"
   ],
   "note": ""
  },
  {
   "property": "C36",
   "status": "proved",
   "theorems": [
    "C36_depends_on_directory_and_length",
    "C36_files_untouched",
    "C36_nothing_else_changes"
   ],
   "note": ""
  },
  {
   "property": "C37",
   "status": "proved",
   "theorems": [
    "C37_host_independent"
   ],
   "note": ""
  },
  {
   "property": "C38",
   "status": "proved",
   "theorems": [
    "C38_tag_signature",
    "C38_accessor_never_panics_refuted"
   ],
   "note": ""
  },
  {
   "property": "C39",
   "status": "proved",
   "theorems": [
    "C39_first_match",
    "C39_any_table"
   ],
   "note": ""
  },
  {
   "property": "C40",
   "status": "proved",
   "theorems": [
    "C40_follow_links",
    "C40_search_terminates_refuted",
    "C40_any_table_result",
    "C40_any_table_forever"
   ],
   "note": ""
  },
  {
   "property": "C41",
   "status": "proved",
   "theorems": [
    "C41_links",
    "C41_later_entry_links_to_earlier_refuted"
   ],
   "note": ""
  },
  {
   "property": "C42",
   "status": "proved",
   "theorems": [
    "C42_open_for_write_fails"
   ],
   "note": ""
  },
  {
   "property": "C43",
   "status": "proved",
   "theorems": [
    "C43_equality"
   ],
   "note": ""
  },
  {
   "property": "C44",
   "status": "proved",
   "theorems": [
    "C44_global_opens"
   ],
   "note": ""
  },
  {
   "property": "C45",
   "status": "proved",
   "theorems": [
    "C45_linearizable",
    "C45_mutual_exclusion",
    "C45_context_never_changes",
    "C45_after_a_panic_all_panic",
    "C45_no_deadlock",
    "C45_panics_kill_or_are_caught"
   ],
   "note": ""
  },
  {
   "property": "C46",
   "status": "proved",
   "theorems": [
    "C46_accepted_iff",
    "C46_single_plugin_checked_refuted"
   ],
   "note": ""
  },
  {
   "property": "C47",
   "status": "proved",
   "theorems": [
    "C47_report",
    "C47_one_complaint"
   ],
   "note": ""
  },
  {
   "property": "C48",
   "status": "proved",
   "theorems": [
    "C48_context_is_stable",
    "C48_defaults"
   ],
   "note": ""
  },
  {
   "property": "C49",
   "status": "proved",
   "theorems": [
    "C49_exactly_one_predicate"
   ],
   "note": ""
  },
  {
   "property": "C50",
   "status": "proved",
   "theorems": [
    "C50_panics_iff",
    "C50_extra_ignored",
    "C50_panic_means_registered_and_short",
    "C50_table"
   ],
   "note": ""
  },
  {
   "property": "C51",
   "status": "proved",
   "theorems": [
    "C51_position",
    "C51_none_iff",
    "C51_panics_iff",
    "C51_first_match",
    "C51_sign_ignored",
    "C51_unsupported_is_zero"
   ],
   "note": ""
  },
  {
   "property": "C52",
   "status": "proved",
   "theorems": [
    "C52_type1_inverse",
    "C52_tiny_gamma_refuted"
   ],
   "note": "Exact real arithmetic (M_CurveReal), not rounded binary64. The _refuted theorem shows gamma below the tolerance is not inverted."
  },
  {
   "property": "C53",
   "status": "proved",
   "theorems": [
    "C53_type2_inverse"
   ],
   "note": "Exact real arithmetic (M_CurveReal), not rounded binary64."
  },
  {
   "property": "C54",
   "status": "proved",
   "theorems": [
    "C54_type3_inverse",
    "C54_flat_part",
    "C54_below_the_offset",
    "C54_offset_at_the_break_refuted"
   ],
   "note": "Exact real arithmetic (M_CurveReal), not rounded binary64."
  },
  {
   "property": "C55",
   "status": "proved",
   "theorems": [
    "C55_type4_inverse"
   ],
   "note": "Exact real arithmetic (M_CurveReal), not rounded binary64."
  },
  {
   "property": "C56",
   "status": "proved",
   "theorems": [
    "C56_type5_inverse"
   ],
   "note": "Exact real arithmetic (M_CurveReal), not rounded binary64."
  },
  {
   "property": "C57",
   "status": "proved",
   "theorems": [
    "C57_type6_inverse"
   ],
   "note": "Exact real arithmetic (M_CurveReal), not rounded binary64."
  },
  {
   "property": "C58",
   "status": "proved",
   "theorems": [
    "C58_type7_inverse"
   ],
   "note": "Exact real arithmetic (M_CurveReal), not rounded binary64."
  },
  {
   "property": "C59",
   "status": "proved",
   "theorems": [
    "C59_type8_inverse",
    "C59_negative_scale_refuted"
   ],
   "note": "Exact real arithmetic (M_CurveReal), not rounded binary64."
  },
  {
   "property": "C60",
   "status": "proved",
   "theorems": [
    "C60_type108_inverse"
   ],
   "note": "Exact real arithmetic (M_CurveReal), not rounded binary64."
  },
  {
   "property": "C61",
   "status": "proved",
   "theorems": [
    "C61_type109_round_trip",
    "C61_inverts_only_at_half",
    "C61_inverse_refuted"
   ],
   "note": "Exact real arithmetic (M_CurveReal), not rounded binary64. The property describes the defect; C61_inverse_refuted is the negated inversion claim."
  },
  {
   "property": "C62",
   "status": "proved",
   "theorems": [
    "C62_negative_input",
    "C62_disagree_iff"
   ],
   "note": "Exact real arithmetic (M_CurveReal), not rounded binary64."
  },
  {
   "property": "C63",
   "status": "proved",
   "theorems": [
    "C63_type1",
    "C63_type4",
    "C63_type108",
    "C63_type109"
   ],
   "note": "Exact real arithmetic (M_CurveReal), not rounded binary64."
  },
  {
   "property": "C64",
   "status": "proved",
   "theorems": [
    "C64_type108_ends",
    "C64_type109_fixed_points",
    "C64_type109_symmetric",
    "C64_flat_sigmoid_refuted"
   ],
   "note": "Exact real arithmetic (M_CurveReal), not rounded binary64."
  },
  {
   "property": "C65",
   "status": "proved",
   "theorems": [
    "C65_closed_data_is_durable",
    "C65_without_close_old_content_may_return",
    "C65_when_close_fails",
    "C65_other_closes_succeed"
   ],
   "note": ""
  },
  {
   "property": "C66",
   "status": "proved",
   "theorems": [
    "C66_every_source",
    "C66_at_most_106_calls",
    "C66_never_writes",
    "C66_table_is_always_sound"
   ],
   "note": "The source is any IOHandler; the exchanges are recorded as a trace."
  },
  {
   "property": "C67",
   "status": "proved",
   "theorems": [
    "C67_every_execution_is_finite",
    "C67_every_call_completes",
    "C67_always_can_finish"
   ],
   "note": "Same thread model as C45 (interleaving steps; no weak memory, the only shared state is behind the RwLock)."
  },
  {
   "property": "C68",
   "status": "proved",
   "theorems": [
    "C68_save_then_open",
    "C68_other_byte_order_fails",
    "C68_other_byte_order_refuted"
   ],
   "note": "The crate has no profile writer; save composes its header/tag conversions and write calls."
  },
  {
   "property": "C69",
   "status": "proved",
   "theorems": [
    "C69_plain_text",
    "C69_hex_listing",
    "C69_injective",
    "C69_lines",
    "C69_complaint_injective"
   ],
   "note": "std's str quoting is modelled with the Unicode tables as parameters."
  },
  {
   "property": "C70",
   "status": "proved",
   "theorems": [
    "C70_equality_is_bytewise",
    "C70_views",
    "C70_words_to_id",
    "C70_new_profile_id",
    "C70_debug_text",
    "C70_debug_injective"
   ],
   "note": "The union is modelled as its 16 bytes (repr(C), no padding)."
  },
  {
   "property": "C71",
   "status": "proved",
   "theorems": [
    "C71_equal_iff",
    "C71_reopened_equal"
   ],
   "note": "Exact characterisation of PartialEq on opened profiles."
  },
  {
   "property": "C72",
   "status": "proved",
   "theorems": [
    "C72_type1",
    "C72_type2",
    "C72_type2_negative_slope",
    "C72_tiny_slope",
    "C72_type3",
    "C72_type3_negative_slope",
    "C72_type3_conforms_iff",
    "C72_type4",
    "C72_type5",
    "C72_type6",
    "C72_type7",
    "C72_type7_negative_input",
    "C72_type7_not_real",
    "C72_zero_base",
    "C72_type8",
    "C72_type5_generalises_type4",
    "C72_type108",
    "C72_type109",
    "C72_negative_slope_refuted",
    "C72_type3_at_the_break_refuted"
   ],
   "note": "Over exact reals with specials; the exceptions are part of the statements, two are shown by _refuted witnesses."
  },
  {
   "property": "C73",
   "status": "proved",
   "theorems": [
    "C73_type1",
    "C73_type2",
    "C73_type3",
    "C73_type4",
    "C73_type5",
    "C73_type6",
    "C73_type7",
    "C73_type8",
    "C73_type108"
   ],
   "note": "Over exact reals."
  },
  {
   "property": "C74",
   "status": "proved",
   "theorems": [
    "C74_type1_range",
    "C74_type4_range",
    "C74_type108_range",
    "C74_type109_range",
    "C74_type2_nonneg"
   ],
   "note": "Over exact reals."
  },
  {
   "property": "C75",
   "status": "proved",
   "theorems": [
    "C75_type1",
    "C75_type1_reversed",
    "C75_type2",
    "C75_type2_reversed",
    "C75_type4",
    "C75_type5",
    "C75_type6",
    "C75_type3_refuted"
   ],
   "note": "binary64 via Flocq; powf only assumed non-negative and monotone on [0,inf] for positive exponents."
  },
  {
   "property": "C76",
   "status": "proved",
   "theorems": [
    "C76_type2",
    "C76_type3",
    "C76_type3_reversed",
    "C76_type4",
    "C76_type4_reversed",
    "C76_type5",
    "C76_type5_reversed",
    "C76_type1",
    "C76_type1_reversed",
    "C76_type2_reversed",
    "C76_type6",
    "C76_type6_reversed",
    "C76_type7",
    "C76_type7_reversed",
    "C76_type8",
    "C76_type108",
    "C76_type108_reversed",
    "C76_type8_reversed",
    "C76_type109",
    "C76_type109_reversed"
   ],
   "note": "binary64 via Flocq; the NaN rules assumed of libm are in S_F64."
  },
  {
   "property": "C77",
   "status": "proved",
   "theorems": [
    "C77_type1_negative_input",
    "C77_type1_reversed_negative_input",
    "C77_flat_sigmoid",
    "C77_type2_reversed_never_negative"
   ],
   "note": "binary64 via Flocq; nothing assumed of libm."
  },
  {
   "property": "C78",
   "status": "proved",
   "theorems": [
    "C78_encode_monotone",
    "C78_decode_order",
    "C78_encode_stable"
   ],
   "note": "binary64 via Flocq; decoding of the minimum word panics with overflow checks (C14), hence the Some hypotheses."
  },
  {
   "property": "C79",
   "status": "proved",
   "theorems": [
    "C79_reverse_then_forward",
    "C79_forward_then_reverse"
   ],
   "note": "powf is only assumed accurate to k (error of the logarithm) where the result is between e^-700 and e^700."
  },
  {
   "property": "C80",
   "status": "proved",
   "theorems": [
    "C80_reverse_then_forward",
    "C80_forward_then_reverse"
   ],
   "note": "Corollary of C79; a correctly rounded powf (exhibited) meets the hypothesis."
  },
  {
   "property": "C81",
   "status": "proved",
   "theorems": [
    "C81_type2",
    "C81_type4_power_piece",
    "C81_type4_linear_piece"
   ],
   "note": "powf assumed accurate to k (and monotone for type 4); the sign of the remaining error is not stated"
  },
  {
   "property": "C82",
   "status": "proved",
   "theorems": [
    "C82_srgb_round_trip",
    "C82_srgb_break"
   ],
   "note": "forward then reverse; powf assumed accurate to one unit in the last place and monotone (ideal_pow is both)"
  },
  {
   "property": "C83",
   "status": "proved",
   "theorems": [
    "C83_srgb_accuracy"
   ],
   "note": "powf assumed accurate to one unit in the last place (ideal_pow is)"
  },
  {
   "property": "C84",
   "status": "proved",
   "theorems": [
    "C84_stored_words",
    "C84_stored_srgb"
   ],
   "note": "powf assumed accurate to one unit in the last place and monotone (ideal_pow is both)"
  },
  {
   "property": "C85",
   "status": "proved",
   "theorems": [
    "C85_srgb_increasing",
    "C85_reverse_steps_back",
    "C85_reverse_increasing_refuted"
   ],
   "note": "that the reverse is increasing is refuted"
  },
  {
   "property": "C86",
   "status": "proved",
   "theorems": [
    "C86_fresh_profile",
    "C86_fresh_accessors",
    "C86_no_handler",
    "C86_read_header"
   ],
   "note": "read_header has no callers in the code"
  },
  {
   "property": "C87",
   "status": "proved",
   "theorems": [
    "C87_writing_unique",
    "C87_messages"
   ],
   "note": ""
  },
  {
   "property": "C88",
   "status": "proved",
   "theorems": [
    "C88_ring_operations",
    "C88_division",
    "C88_comparisons_and_literals",
    "C88_math_functions"
   ],
   "note": "the model's f64 is Flocq's binary64; this ties it to exact arithmetic"
  },
  {
   "property": "C89",
   "status": "proved",
   "theorems": [
    "C89_rounded_formula",
    "C89_library_exists",
    "C89_library_conditions"
   ],
   "note": "relates the two instances of the same generic model; what the formulas are is said by the exact-arithmetic curve properties"
  },
  {
   "property": "C90",
   "status": "proved",
   "theorems": [
    "C90_type3_reversed_increasing",
    "C90_type3_reversed_refuted",
    "C90_type4_reversed_increasing",
    "C90_type5_reversed_increasing",
    "C90_type6_reversed_increasing",
    "C90_type6_reversed_refuted"
   ],
   "note": "increasing unconditionally is refuted for -3 and -6 (and for -4 in C85); -4 and -5 need the stated condition at the break"
  },
  {
   "property": "C91",
   "status": "proved",
   "theorems": [
    "C91_type7_increasing",
    "C91_type7_refuted",
    "C91_type7_reversed_increasing",
    "C91_type8_increasing",
    "C91_type8_reversed_increasing",
    "C91_type8_reversed_refuted",
    "C91_type108_increasing",
    "C91_type108_reversed_increasing",
    "C91_library_conditions"
   ],
   "note": "refuted for 7 with c = 0 and for -8 across e"
  },
  {
   "property": "C92",
   "status": "proved",
   "theorems": [
    "C92_sigmoid",
    "C92_sigmoid_reversed_increasing",
    "C92_any_parameter",
    "C92_infinite_parameter",
    "C92_infinite_parameter_reversed",
    "C92_nan_parameter"
   ],
   "note": "exact characterisation for positive k: increasing or never finite"
  },
  {
   "property": "C93",
   "status": "proved",
   "theorems": [
    "C93_rules",
    "C93_room",
    "C93_same_as_c",
    "C93_other_targets",
    "C93_converters",
    "C93_header_rule"
   ],
   "note": "Signature has no repr attribute; that a structure of one u32 is laid out like the u32 is assumed"
  },
  {
   "property": "C94",
   "status": "proved",
   "theorems": [
    "C94_readable",
    "C94_readable_pretty",
    "C94_one_line",
    "C94_header",
    "C94_plugins",
    "C94_state",
    "C94_signatures",
    "C94_names_refuted"
   ],
   "note": "exact for the listed types; that the text names the type is refuted for two of them; Context and Profile are C101"
  },
  {
   "property": "C95",
   "status": "proved",
   "theorems": [
    "C95_numbers",
    "C95_order"
   ],
   "note": "numbers compared with the table of lcms2.h transcribed in S_Show.v"
  },
  {
   "property": "C96",
   "status": "proved",
   "theorems": [
    "C96_type1",
    "C96_type2",
    "C96_type3",
    "C96_type4",
    "C96_type4_line",
    "C96_type5",
    "C96_type5_line",
    "C96_type6",
    "C96_type7",
    "C96_type8",
    "C96_type108",
    "C96_type109",
    "C96_ordinary"
   ],
   "note": "the accuracy of powf, log10 and exp is a hypothesis, met by correctly rounded ones (C96_cases)"
  },
  {
   "property": "C97",
   "status": "proved",
   "theorems": [
    "C97_type1",
    "C97_type2",
    "C97_type3",
    "C97_type4",
    "C97_type4_line",
    "C97_type5",
    "C97_type5_line",
    "C97_type6",
    "C97_type7",
    "C97_type8",
    "C97_type108",
    "C97_type109",
    "C97_ordinary"
   ],
   "note": "as C96; for -109 the formula is that of the code, with the decimal logarithm (C61 shows it is not the inverse)"
  },
  {
   "property": "C98",
   "status": "proved",
   "theorems": [
    "C98_files_are_abstract_files",
    "C98_failing_files",
    "C98_undisturbed_history",
    "C98_fixed_buffers_are_abstract_files"
   ],
   "note": "growable buffers are C11"
  },
  {
   "property": "C99",
   "status": "proved",
   "theorems": [
    "C99_constant",
    "C99_constant_only_then",
    "C99_type1_reversed",
    "C99_under_range",
    "C99_type5_under_range",
    "C99_type3_under_range",
    "C99_type3_at_the_offset",
    "C99_unit_base",
    "C99_type7_negative_scale_refuted"
   ],
   "note": "The _refuted theorem concerns negative scales of type -7. Types 2 and 3 also ignore their input for some other parameters (C72), so the converse is stated for the other types."
  },
  {
   "property": "C100",
   "status": "proved",
   "theorems": [
    "C100_type3",
    "C100_type6",
    "C100_type5",
    "C100_type5_line",
    "C100_type7",
    "C100_type8",
    "C100_type108",
    "C100_ordinary",
    "C100_ordinary_log",
    "C100_ordinary_exp",
    "C100_ordinary_s"
   ],
   "note": "Type 5 above its break assumes a monotone powf and a line that does not end above the power there. The reverse of type 109 does not return the input (C61). Types 1, 2 and 4 are C79-C82."
  },
  {
   "property": "C101",
   "status": "proved",
   "theorems": [
    "C101_date_iso",
    "C101_dates",
    "C101_all_dates_refuted",
    "C101_profiles",
    "C101_profiles_hold",
    "C101_contexts",
    "C101_floats"
   ],
   "note": "The texts of handlers and plug-ins, and the digits std chooses for finite floats, are parameters. That all dates of chrono have different texts is refuted."
  },
  {
   "property": "C102",
   "status": "proved",
   "theorems": [
    "C102_values_tell_numbers_apart",
    "C102_operations",
    "C102_rounded_formula",
    "C102_library",
    "C102_zero_input_seen",
    "C102_zero_input_positive_exponent",
    "C102_zero_input_unseen"
   ],
   "note": "Which of two zeros f64::max returns is not specified by std; the curves only compare its result. Parameters that show the sign of a zero input are given in the proof."
  },
  {
   "property": "C103",
   "status": "proved",
   "theorems": [
    "C103_neutral_parameters",
    "C103_break_below_zero",
    "C103_reverse_of_4",
    "C103_gamma_one",
    "C103_libraries"
   ],
   "note": "Neutral parameters of types 7, 8, 108, 109 do not exist (their formulas are never the identity in general), so these types are left out."
  },
  {
   "property": "C104",
   "status": "proved",
   "theorems": [
    "C104_ignored_bytes",
    "C104_kept_bytes",
    "C104_magic_bytes",
    "C104_listed_entries",
    "C104_no_other_byte_is_ignored"
   ],
   "note": ""
  },
  {
   "property": "C105",
   "status": "proved",
   "theorems": [
    "C105_final_verdicts",
    "C105_tags",
    "C105_cut"
   ],
   "note": ""
  },
  {
   "property": "C106",
   "status": "proved",
   "theorems": [
    "C106_four_in_five",
    "C106_five_is_four_shifted",
    "C106_two_in_four",
    "C106_two_in_three",
    "C106_three_is_two_shifted",
    "C106_one_in_two",
    "C106_six_in_five",
    "C106_six_in_five_zero",
    "C106_seven_affine",
    "C106_eight_affine",
    "C106_s_shapes",
    "C106_m6_in_m5",
    "C106_m3_is_m6",
    "C106_m2_is_m4",
    "C106_m1_in_m2",
    "C106_m4_in_m5"
   ],
   "note": ""
  },
  {
   "property": "C107",
   "status": "proved",
   "theorems": [
    "C107_integers_in",
    "C107_numbers_in",
    "C107_colours_in",
    "C107_integers_out",
    "C107_floats_out",
    "C107_numbers_out",
    "C107_colours_out",
    "C107_size",
    "C107_handlers"
   ],
   "note": ""
  },
  {
   "property": "C108",
   "status": "proved",
   "theorems": [
    "C108_type1",
    "C108_type1_reversed",
    "C108_type2",
    "C108_type2_reversed",
    "C108_type3",
    "C108_type3_reversed",
    "C108_type4",
    "C108_type4_reversed",
    "C108_type4_reversed_line_only",
    "C108_type4_and_its_reverse",
    "C108_type5",
    "C108_type5_reversed",
    "C108_type5_and_its_reverse",
    "C108_type6",
    "C108_type6_reversed",
    "C108_type7",
    "C108_type7_below_0",
    "C108_type7_at_0",
    "C108_type7_reversed",
    "C108_type8",
    "C108_type8_reversed",
    "C108_type108",
    "C108_type108_reversed",
    "C108_type109",
    "C108_type109_reversed",
    "C108_type109_reversed_unit",
    "C108_srgb_continuous_refuted"
   ],
   "note": ""
  },
  {
   "property": "C109",
   "status": "proved",
   "theorems": [
    "C109_every_listed_tag_can_be_fetched",
    "C109_every_tag_found_can_be_fetched",
    "C109_handler_only_reads"
   ],
   "note": ""
  },
  {
   "property": "C110",
   "status": "proved",
   "theorems": [
    "C110_type1",
    "C110_type2",
    "C110_type3",
    "C110_type4",
    "C110_type4_usual",
    "C110_type5",
    "C110_type5_usual",
    "C110_type6",
    "C110_type7",
    "C110_type7_otherwise",
    "C110_type8",
    "C110_type108",
    "C110_type109"
   ],
   "note": ""
  },
  {
   "property": "C111",
   "status": "proved",
   "theorems": [
    "C111_image",
    "C111_type1",
    "C111_type2",
    "C111_type3",
    "C111_type4",
    "C111_type5",
    "C111_type6",
    "C111_type7",
    "C111_type7_otherwise",
    "C111_type8",
    "C111_type108",
    "C111_type109",
    "C111_type4_all",
    "C111_type5_all"
   ],
   "note": ""
  },
  {
   "property": "C112",
   "status": "proved",
   "theorems": [
    "C112_conversation",
    "C112_calls",
    "C112_handlers"
   ],
   "note": ""
  },
  {
   "property": "C113",
   "status": "proved",
   "theorems": [
    "C113_type1",
    "C113_type2",
    "C113_types_3_6",
    "C113_srgb",
    "C113_type7",
    "C113_type8",
    "C113_type108"
   ],
   "note": ""
  },
  {
   "property": "C114",
   "status": "proved",
   "theorems": [
    "C114_gamma",
    "C114_gamma_reversed",
    "C114_offset_curves"
   ],
   "note": ""
  },
  {
   "property": "C115",
   "status": "proved",
   "theorems": [
    "C115_type1",
    "C115_type1_reversed",
    "C115_type2",
    "C115_type2_reversed",
    "C115_type3",
    "C115_type3_reversed",
    "C115_type4_parts",
    "C115_type4_reversed",
    "C115_type5_parts",
    "C115_type5",
    "C115_type5_reversed",
    "C115_type6",
    "C115_type6_reversed",
    "C115_type7",
    "C115_type7_reversed",
    "C115_type8",
    "C115_type8_reversed",
    "C115_type108_reversed",
    "C115_type109_reversed",
    "C115_type4_iff",
    "C115_type5_iff",
    "C115_stepping_down_refuted"
   ],
   "note": ""
  },
  {
   "property": "C116",
   "status": "proved",
   "theorems": [
    "C116_plugins",
    "C116_files",
    "C116_never_confused",
    "C116_one_fault"
   ],
   "note": ""
  }
 ]
}