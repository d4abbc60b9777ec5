# Formal model of lcms2.rs.old2 in Rocq (Coq 8.16.1)

The source under study is `/repo` (a partial Rust port of Little CMS). Everything here is
about a *model* of that code written in Gallina; the tie between model and code is the
file/line citation carried by every model definition.

## Layout (`rocq/theories/`)

| prefix | role |
|---|---|
| `M_*.v`  | the model: executable definitions only, no proofs, each citing `/repo` lines |
| `S_*.v`  | small independent specifications (wire format, calendar, abstract file, ICC layout ...) |
| `P_*.v`  | proofs (lemmas) |
| `Props_*.v` | the property theorems, each `exact some_lemma`, `Print Assumptions`, and non-vacuity examples |
| `Validate.v`, `Validate2.v` | the repository's own unit tests (first file) and documentation examples (second file) evaluated in the model |

## Modelling conventions

* **Integers** are `Z` with explicit wrap (`mod 2^n`). The build settings that change behaviour
  are a record `env`: host byte order, the `use_little_endian` feature, overflow checks
  (debug/release), pointer width (32/64), and two points in which versions of std differ: whether
  `Cursor::read_exact` moves the cursor to the end when it fails, and whether `Cursor<Vec<u8>>::write_all`
  of no bytes still pads the vector up to the position (newer std overrides `write_all` by a single write).
  Theorems quantify over `env` unless they say otherwise.
* **Results**: `res A = Ok a | Err e | Panic`. `&mut self` methods return the new state, and a
  caller's `&mut [u8]` buffer is returned too, also on error.
* **IOHandler** is a record of the four primitive methods over a state type; the default methods
  are functions over that record, so statements can quantify over every handler.
* **std** behaviour used by the code is modelled from its documentation/source: `Cursor` (Vec-like
  and slice-like), `read_exact`/`write_all` loops over an OS `read`/`write` whose short
  transfers, EINTR and hard errors are an arbitrary schedule; `str::from_utf8`; chrono 0.4.19
  `from_ymd`/`and_hms`/`year_ce`; `Mutex` poisoning; float-to-int `as` casts.
* **f64** is Flocq's `binary_float 53 1024` (single NaN), round to nearest even; **f32** is
  Flocq's `binary32` with NaN payloads (the code only transmutes it).
* **Parametric curves** are one definition, generic in a record of floating-point operations.
  It is instantiated with (a) extended reals (exact arithmetic plus IEEE special cases) for the
  inverse/monotonicity laws and (b) Flocq binary64 with `powf/exp/log10` an arbitrary oracle for the
  laws that do not depend on libm.
* **Function pointers** (error handlers, plugin callbacks) are opaque identifiers interpreted by an
  arbitrary environment function. 

## Plan per property

| id | what is modelled / how it is proved |
|---|---|
| C01 | `adjust_endianness_*` of both modules over `env`; algebra of byte reversal |
| C02 | same; against `S_Bytes` big/little-endian positional value |
| C03 | default methods of the trait for an arbitrary handler; unfold to the bytes handed to `write` |
| C04,C05 | typed op lists; induction over the list, FileMem growable |
| C06,C07 | slice-like Cursor `write_all` loop; list splice arithmetic |
| C08,C09 | Cursor read/seek; case analysis |
| C10 | `reported_size` over FileMem and File |
| C11 | refinement of Vec FileMem to (length, offset -> byte); induction over op history |
| C12 | induction over the array, arbitrary handler |
| C13 | Flocq `bits_of_b32`/`b32_of_bits` |
| C14-C16 | Flocq binary64: exactness of scaling, monotone rounding, pred/ulp argument for the single exception |
| C17-C19 | FileNull; simulation with Vec FileMem by induction over the history |
| C20,C21 | OS schedule model with fuel proved sufficient; induction over the schedule |
| C22 | simulation File -> FileMem by induction over the history |
| C23-C25 | Signature conversions; UTF-8 validator against scalar-value encoding spec |
| C26 | constant tables transcribed from both sources; finite computation lifted with forallb |
| C27-C29 | repr(C) layout as byte offsets + swap; against big-endian field spec |
| C30,C31 | chrono validity against Gregorian calendar spec |
| C32-C37 | `read_header_thr` over any handler, against an independent parser of the byte string |
| C38-C41 | accessors and searches on the table; divergence = no fuel suffices |
| C42 | File::create + read_header on a write-only empty file |
| C43 | field-wise decidable equality |
| C44,C45 | global mutex state machine; induction over histories / interleavings |
| C46-C48 | plugin chain walk, induction over the chain; histories of context operations |
| C49 | case analysis |
| C50,C51 | generic evaluator; case analysis over the type |
| C52-C64 | extended-real instance, Rpower algebra |
| C65 | page-cache/durable model of one file with crash at any point |
| C66 | `read_header_thr` against an arbitrary handler; trace of exchanges, spec from delivered bytes |
| C67 | decreasing measure on the interleaving system |
| C68 | composition of the conversions with File writes, then C32 |
| C69 | UTF-8 decoding inverse, prefix-freeness of the escapes |
| C70 | byte/word views inverse to each other, listing injective |
| C71 | C32's profile as a function of the bytes, padding injective |
| C72 | `eval_parametric` over exact reals against separately written ICC formulas |
| C73 | composition reverse then forward, powers inverted |
| C74 | monotonicity and end points |
| C75 | binary64 order through Flocq's rounding; `powf` any monotone function |
| C76 | case analysis on NaN; C's NaN rules for libm where needed |
| C77 | Sterbenz subtraction; nothing about libm |
| C78 | monotone rounding and floor; exactness of decoding |
| C79 | relative errors as differences of logarithms; powf assumed accurate to k |
| C80 | corollary of C79 with numeric bounds for ln 2 |
| C81 | error of a r + b, powers as logarithms, error of subtracting b again |
| C82 | corollary of C81; rational bounds for ln at the break |
| C83 | errors as differences of logarithms; the two sRGB pieces compared at the break |
| C84 | C15/C14 for the words, then C82's and C83's lemmas with wider tolerance |
| C85 | C75 and C82's order at the break; a number between the two pieces as witness |
| C86 | computation; C44's state after any history |
| C87 | induction on the digits of the standard library's decimal numbers |
| C88 | Flocq's correctness theorems per operation, case analysis on special values |
| C89 | one congruence lemma per operation, then structurally through every arm; negative zeros excluded where a divisor or base is unchecked |
| C90 | each arm is a composition of monotone roundings on a side of its break; the two refutations compare minus infinity with the break point |
| C91 | as C90, with subtraction from 1 order-reversing; order of pow in its exponent, of log10 and exp are library conditions, proved of a correctly rounded library |
| C92 | 1/s for 1 <= s < 2 rounds to at least 1/2 + 2^-53, so the correction factor is finite and positive; s = 2 makes it infinite |
| C93 | `M_Layout`: type trees, C's placement rules as an inductive relation in `S_Layout`; computed layout satisfies it, and it is functional; concrete tables by evaluation |
| C94 | `M_Show`: a tree of what the formatter builders are asked to write; first character gives the kind, names end at the first non-identifier character, padding is undone line by line |
| C95 | finite tables and the order of the numbers |
| C96 | each rounding step bounded, the power compared in logarithms |
| C97 | as C96, the reciprocal of the exponent and the break point added |
| C98 | step-by-step simulation, as for the growable memory file |
| C99 | the guards decide exactly abs p < 1/10000 (no float between it and the literal); a library returning NaN shows the guards are all there is |
| C100 | the forward error of C96 becomes a relative error before the root (or logarithm) of the reverse, whose own error is that of C97; the two add up in logarithms |
| C101 | dates are read digit by digit up to each separator, fractions by their length; profiles and contexts field by field with the reader of C94 |
| C102 | a curve commutes with every map that commutes with the operations; Flocq's correctness theorems give the signs; zero inputs by congruence of numerical equality |
| C103 | operations with 0 and 1 leave the value alone; then case distinction on the order of input, break and zero |
| C104 | the verdict of C32 read through byte-wise agreement; byte lists and their wire values determine each other; completeness by a computed search for witnesses |
| C105 | the verdict of C32 on a list and on its extension; entries, header and count read the same bytes |
| C106 | branch by branch; adding zero, multiplying by one and subtracting unequal numbers are exact enough (C88, C103) |
| C107 | a conversation (calls, continuations on the answers, a predicate on the result) per method, followed step by step |
| C108 | both sides of the point are continuous functions (standard library); a curve glued from two pieces and a value is steady iff all three agree |
| C109 | every handler call keeps the content, the access rights and the range of the position of a file opened for reading; so does opening; accepted entries lie inside the file (C33) |
| C110 | `undoes` (S_Undo.v) fixes one value and asks for one answer; each arm is computed on each side of its branches, roots of negative numbers are excluded by the integrality of the exponent |
| C111 | the values are the image of the inputs of C110 (`C111_image`); each image is computed with the curve formulas |
| C112 | the conversation is written as a tree of calls and answers (`S_Opening.opening`); the model is run along it call by call, the directory by induction with the table of the entries read so far |
| C113 | the number nearest to n/65535 is off by at most 2^-53, the round trips of C80-C82 and C100 by at most 2^-29, together less than half a word |
| C114 | storing moves a parameter by at most 2^-17 (C16); s e^-s <= 4/9 bounds how x^g moves with g, the mean value theorem how it moves with x; the rounding is C96's and C97's |
| C115 | powers and exponentials are strictly monotone; the direction of a composition is the product of the directions; a reverse that is an inverse goes the way of its curve |
| C116 | the texts come from C35 and C47; decimal numbers (C87) and quoted signatures (C69) can be read back, the fixed parts differ |

Properties that turn out false of the code are stated as the exact condition under which they
hold, with a `..._refuted` theorem giving a concrete witness.

## Trusted base

1. **The Coq 8.16.1 kernel** (and `coqc`). `coqchk -o` on all 165 compiled files of commit 91f62cf ended without error in 6.5 minutes and listed the four axioms below and nothing else (no type-in-type, no unsafe fixpoints, no assumed positivity).
   `vm_compute` is used for finite computations; no `native_compute`, no plugin of our own.
2. **Axioms of the standard library**, exactly as printed by `Print Assumptions` after each theorem:
   - `ClassicalDedekindReals.sig_forall_dec`, `ClassicalDedekindReals.sig_not_dec`,
     `FunctionalExtensionality.functional_extensionality_dep` (the construction of `R`) and
     `Classical_Prop.classic` (used by Flocq's lemmas). No other axiom appears anywhere; none is ours.
   The theorems are split below into those closed under the global context and those that use all four.
3. **The transcription**: that the definitions in `M_*.v` say what the cited Rust lines do, including the
   std, chrono and OS behaviour listed under "Modelling conventions". Nothing in the build checks this;
   each definition cites its lines so that it can be read against the source.

### Which code is modelled

| source | modelled |
|---|---|
| `src/io/big_endian.rs`, `src/io/little_endian.rs`, `src/io.rs` (re-exports, `AccessMode`) | all |
| `src/io/io_handler.rs` | every default method and both fixed-point helpers |
| `src/io/file_mem.rs`, `src/io/file_null.rs`, `src/io/file_file.rs` | all methods incl. `close` |
| `src/types/signature.rs` | all conversions, equality, the string built by `Debug` |
| `src/types/signatures.rs`, `src/types/signatures/*.rs` | every constant (compared with `tests/include/bindings.rs`) |
| `src/types/date_time_number.rs`, `icc_header.rs`, `tag_entry.rs`, `encoded_xyz_number.rs`, `cie_xyz.rs` | all |
| `src/types/profile_id.rs` | the union, equality, the string built by `Debug` |
| `src/types/profile.rs` | all, incl. the private, unused wrapper `read_header` (112-116) |
| `src/state/context.rs`, `src/state/chunks/*.rs` | `new`, `init_plugin`, `get_user_data`, `signal_error`, defaults, `GLOBAL_CONTEXT` |
| `src/plugins/plugin.rs` | `Plugin`, `PluginType`, the `is_*` predicates |
| `src/plugins/para_curve.rs` | all |

The `Debug` texts of the structures, plug-in parts, chunks, `FileMem`, `FileNull` and `ErrorCode` are in `M_Show`, those of `Profile`, `Context`, `CIEXYZ`, `AdaptionStateChunk`
and chrono's dates in `M_Show2`, layouts in `M_Layout`.

Not modelled: std's choice of digits for finite floats and its `Debug` text of `File` (parameters of `M_Show2`); declarations that no function uses
(`src/types/{pipeline,mlu,named_color_list,seq,tone_curve,curve_segment}.rs`, the callback types in
`src/plugins/{interp,optimization,transform,formatter,tag,tag_type,intent}.rs`); the chunks' `new` (stores its argument) and
`default_interpolatior_factory` (its function does nothing), which nothing calls; `build.rs`, `bindings/`, tests.
Running out of memory, and other processes writing to an open `File`, are outside the file model (C66 covers
arbitrary sources instead).

### Simplifications

* A profile's handler state is a value (`Box<dyn IOHandler>` is its state plus its four methods).
* Threads (`M_Threads`): one call is four atomic steps (lock, open, read header, unlock); memory is
  sequentially consistent, which the mutex guarantees for the only shared state.
* Parametric curves: C52-C64 and C72-C74 are about exact real arithmetic with the IEEE special values.
  C75-C85, C88-C92, C96-C97, C99-C100, C102-C103 and C106 are about binary64 with its rounding; libm, which has no specified accuracy, is a parameter there, and
  what is assumed of it (monotone, a stated accuracy, NaN rules, or nothing) stands in each theorem. C50, C51 hold for every arithmetic.
* An error handler other than the default is a total function of the context, code and text to the context it leaves.
  One that panics, does not return, or itself calls `signal_error` (whose event would not be recorded) is not modelled.
  No such handler can be installed today: the field is `pub(crate)` and nothing in the crate assigns it, so every
  context has the default handler, which does nothing (`error_handler.rs:34-35`).
* A crash (C65) leaves a length some version had and any mix of the versions' bytes.

### Theorems closed under the global context

- C01: int_helpers_are_involutions, array_helpers_are_involutions
- C02: int_helpers_give_wire_order, array_helpers_give_wire_value, int_and_array_helpers_agree, wire_spec_is_a_bijection
- C03: wire_bytes_have_size_and_value, typed_reads_take_wire_value
- C06: fixed_write_that_fits
- C07: fixed_write_overflow, fixed_write_never_panics
- C08: memory_read_is_exact
- C09: memory_seek_is_exact_or_rejected
- C10: reported_size_of_memory_file, memory_position_neutral, reported_size_of_file, position_neutral_on_32bit_refuted
- C11: growable_memory_refines_abstract_file
- C12: write_u16_array_is_elementwise, read_u16_array_is_elementwise, in_order_is_deterministic
- C17: typed_integer_reads_give_zero, raw_read_leaves_buffer, raw_read_delivers_zeros_refuted
- C18: null_seek, null_read_and_write, null_seek_cases, starts_empty
- C19: null_file_is_a_dry_run, empty_write_refuted
- C20: file_read_is_schedule_independent, file_read_never_writes_or_panics
- C21: file_write_is_schedule_independent, failed_write_stores_a_prefix
- C22: disk_and_memory_are_interchangeable, memory_and_disk_are_interchangeable, empty_write_refuted
- C23: from_slice, from_str, from_short_array, from_four
- C24: u32_round_trips, bytes_round_trips, bytes_are_big_endian, equal_iff_same_bytes
- C25: string, validation
- C26: macro_constants, constants_in_use, constants_match, technology_matches_but_one, all_constants_match_refuted, unambiguous, names_unique
- C27: decode_then_encode, encode_then_decode
- C28: fields_at_icc_offsets, decoded_fields_in_range, host_independent
- C29: tag_entry_fields, tag_entry_bijection
- C30: real_dates_convert, other_dates_panic
- C31: icc_date_there_and_back, icc_date_unchanged_iff, calendar_date_to_icc, calendar_date_there_and_back
- C32: open_delivers_the_verdict, success_iff, with_failing_reads, no_such_file
- C33: tags_inside_the_file
- C34: panics_iff, read_failures_cause_no_panic
- C35: handler_calls, wrong_magic, too_many_tags
- C36: files_untouched, nothing_else_changes
- C37: host_independent
- C38: tag_signature
- C39: first_match, any_table
- C40: follow_links, any_table_result, any_table_forever
- C41: links
- C42: open_for_write_fails
- C43: equality
- C45: panics_kill_or_are_caught
- C46: accepted_iff
- C47: report, one_complaint
- C49: exactly_one_predicate
- C50: panics_iff, extra_ignored, panic_means_registered_and_short, table
- C51: position, none_iff, panics_iff, first_match, sign_ignored, unsupported_is_zero
- C65: closed_data_is_durable, without_close_old_content_may_return, when_close_fails, other_closes_succeed
- C66: every_source, at_most_106_calls, never_writes, table_is_always_sound
- C68: save_then_open, other_byte_order_fails
- C69: plain_text, hex_listing, injective, lines, complaint_injective
- C70: equality_is_bytewise, views, words_to_id, new_profile_id, debug_text, debug_injective
- C71: equal_iff, reopened_equal
- C86: fresh_profile, fresh_accessors, no_handler
- C87: writing_unique, messages
- C93: rules, room, same_as_c, other_targets, converters, header_rule
- C94: readable, readable_pretty, one_line, header, plugins, state, signatures, names_refuted
- C95: numbers, order
- C98: files_are_abstract_files, failing_files, undisturbed_history, fixed_buffers_are_abstract_files
- C101: date_iso, dates, all_dates_refuted, profiles, profiles_hold, contexts, floats
- C104: kept_bytes, magic_bytes, listed_entries
- C105: tags, cut
- C107: integers_in, integers_out, floats_out, size, handlers
- C109: every_listed_tag_can_be_fetched, every_tag_found_can_be_fetched, handler_only_reads
- C112: conversation, calls, handlers
- C116: plugins, files, never_confused, one_fault

### Theorems that use the four axioms above

- C03: typed_writes_give_wire_bytes
- C04: streams_are_portable, needs_equal_feature
- C05: round_trip, stream_content
- C13: f32_bits_survive_conversion, f32_transfer_is_bit_exact
- C14: decoding_is_exact, decoding_panics_only_on_min, read_s15f16_decodes_the_word
- C15: encoding_rounds_half_up_and_saturates, the_one_exception, special_values
- C16: every_word_survives, every_value_in_range_survives_up_to_rounding, xyz_round_trip
- C17: typed_real_reads_give_zero
- C32: one_verdict
- C34: never_panics_refuted
- C36: depends_on_directory_and_length
- C38: accessor_never_panics_refuted
- C40: search_terminates_refuted
- C41: later_entry_links_to_earlier_refuted
- C44: global_opens
- C45: linearizable, mutual_exclusion, context_never_changes, after_a_panic_all_panic, no_deadlock
- C46: single_plugin_checked_refuted
- C48: context_is_stable, defaults
- C52: type1_inverse, tiny_gamma_refuted
- C53: type2_inverse
- C54: type3_inverse, flat_part, below_the_offset, offset_at_the_break_refuted
- C55: type4_inverse
- C56: type5_inverse
- C57: type6_inverse
- C58: type7_inverse
- C59: type8_inverse, negative_scale_refuted
- C60: type108_inverse
- C61: type109_round_trip, inverts_only_at_half, inverse_refuted
- C62: negative_input, disagree_iff
- C63: type1, type4, type108, type109
- C64: type108_ends, type109_fixed_points, type109_symmetric, flat_sigmoid_refuted
- C67: every_execution_is_finite, every_call_completes, always_can_finish
- C68: other_byte_order_refuted
- C72: type1, type2, type2_negative_slope, tiny_slope, type3, type3_negative_slope, type3_conforms_iff, type4, type5, type6, type7, type7_negative_input, type7_not_real, zero_base, type8, type5_generalises_type4, type108, type109, negative_slope_refuted, type3_at_the_break_refuted
- C73: type1, type2, type3, type4, type5, type6, type7, type8, type108
- C74: type1_range, type4_range, type108_range, type109_range, type2_nonneg
- C75: type1, type1_reversed, type2, type2_reversed, type4, type5, type6, type3_refuted
- C76: type2, type3, type3_reversed, type4, type4_reversed, type5, type5_reversed, type1, type1_reversed, type2_reversed, type6, type6_reversed, type7, type7_reversed, type8, type108, type108_reversed, type8_reversed, type109, type109_reversed
- C77: type1_negative_input, type1_reversed_negative_input, flat_sigmoid, type2_reversed_never_negative
- C78: encode_monotone, decode_order, encode_stable
- C79: reverse_then_forward, forward_then_reverse
- C80: reverse_then_forward, forward_then_reverse
- C81: type2, type4_power_piece, type4_linear_piece
- C82: srgb_round_trip, srgb_break
- C83: srgb_accuracy
- C84: stored_words, stored_srgb
- C85: srgb_increasing, reverse_steps_back, reverse_increasing_refuted
- C86: read_header
- C88: ring_operations, division, comparisons_and_literals, math_functions
- C89: rounded_formula, library_exists, library_conditions
- C90: type3_reversed_increasing, type3_reversed_refuted, type4_reversed_increasing, type5_reversed_increasing, type6_reversed_increasing, type6_reversed_refuted
- C91: type7_increasing, type7_refuted, type7_reversed_increasing, type8_increasing, type8_reversed_increasing, type8_reversed_refuted, type108_increasing, type108_reversed_increasing, library_conditions
- C92: sigmoid, sigmoid_reversed_increasing, any_parameter, infinite_parameter, infinite_parameter_reversed, nan_parameter
- C96: type1, type2, type3, type4, type4_line, type5, type5_line, type6, type7, type8, type108, type109, ordinary
- C97: type1, type2, type3, type4, type4_line, type5, type5_line, type6, type7, type8, type108, type109, ordinary
- C99: constant, constant_only_then, type1_reversed, under_range, type5_under_range, type3_under_range, type3_at_the_offset, unit_base, type7_negative_scale_refuted
- C100: type3, type6, type5, type5_line, type7, type8, type108, ordinary, ordinary_log, ordinary_exp, ordinary_s
- C102: values_tell_numbers_apart, operations, rounded_formula, library, zero_input_seen, zero_input_positive_exponent, zero_input_unseen
- C103: neutral_parameters, break_below_zero, reverse_of_4, gamma_one, libraries
- C104: ignored_bytes, no_other_byte_is_ignored
- C105: final_verdicts
- C106: four_in_five, five_is_four_shifted, two_in_four, two_in_three, three_is_two_shifted, one_in_two, six_in_five, six_in_five_zero, seven_affine, eight_affine, s_shapes, m6_in_m5, m3_is_m6, m2_is_m4, m1_in_m2, m4_in_m5
- C107: numbers_in, colours_in, numbers_out, colours_out
- C108: type1, type1_reversed, type2, type2_reversed, type3, type3_reversed, type4, type4_reversed, type4_reversed_line_only, type4_and_its_reverse, type5, type5_reversed, type5_and_its_reverse, type6, type6_reversed, type7, type7_below_0, type7_at_0, type7_reversed, type8, type8_reversed, type108, type108_reversed, type109, type109_reversed, type109_reversed_unit, srgb_continuous_refuted
- C110: type1, type2, type3, type4, type4_usual, type5, type5_usual, type6, type7, type7_otherwise, type8, type108, type109
- C111: image, type1, type2, type3, type4, type5, type6, type7, type7_otherwise, type8, type108, type109, type4_all, type5_all
- C113: type1, type2, types_3_6, srgb, type7, type8, type108
- C114: gamma, gamma_reversed, offset_curves
- C115: type1, type1_reversed, type2, type2_reversed, type3, type3_reversed, type4_parts, type4_reversed, type5_parts, type5, type5_reversed, type6, type6_reversed, type7, type7_reversed, type8, type8_reversed, type108_reversed, type109_reversed, type4_iff, type5_iff, stepping_down_refuted
