{
 "claims": [
  {
   "property": "C01",
   "status": "proved",
   "theorems": [
    "C01_decode_exact"
   ],
   "note": ""
  },
  {
   "property": "C02",
   "status": "proved",
   "theorems": [
    "C02_encode_truncates",
    "C02_encode_int",
    "C02_encode_small_int",
    "C02_from_real"
   ],
   "note": "Includes ints, which are first rounded to a double; MAX_IBM_INT is the integer value of MAX_IBM_FLOAT."
  },
  {
   "property": "C03",
   "status": "proved",
   "theorems": [
    "C03_encode_errors",
    "C03_encode_four_bytes",
    "C03_encode_zero"
   ],
   "note": ""
  },
  {
   "property": "C04",
   "status": "proved",
   "theorems": [
    "C04_bytes_float_bytes"
   ],
   "note": ""
  },
  {
   "property": "C05",
   "status": "proved",
   "theorems": [
    "C05_sample_bytes_preserved",
    "C05_short_buffer",
    "C05_constructor"
   ],
   "note": ""
  },
  {
   "property": "C06",
   "status": "proved",
   "theorems": [
    "C06_encode_monotone",
    "C06_encode_odd"
   ],
   "note": ""
  },
  {
   "property": "C07",
   "status": "proved",
   "theorems": [
    "C07_normalize",
    "C07_try_normalize"
   ],
   "note": ""
  },
  {
   "property": "C08",
   "status": "partial",
   "theorems": [
    "C08_eq_exact",
    "C08_symmetric",
    "C08_transitive_refuted",
    "C08_eq_false_positive_refuted",
    "C08_eq_false_negative_refuted",
    "C08_eq_partial"
   ],
   "note": "Fails on the code: W(2,0,0,1)==W(0,0,1,1) although different, and zeros of opposite sign bit compare unequal. Proved: no exception, and exactly which pairs can be wrong. C08_eq_exact says for every pair exactly when == is true; == is symmetric but not transitive."
  },
  {
   "property": "C09",
   "status": "proved",
   "theorems": [
    "C09_eq_float",
    "C09_eq_rational",
    "C09_as_integer_ratio",
    "C09_order"
   ],
   "note": ""
  },
  {
   "property": "C10",
   "status": "proved",
   "theorems": [
    "C10_trunc"
   ],
   "note": ""
  },
  {
   "property": "C11",
   "status": "partial",
   "theorems": [
    "C11_exact",
    "C11_ceil_refuted",
    "C11_floor_refuted",
    "C11_ceil_floor_partial"
   ],
   "note": "Fails on the code: ceil(1.0) == 2, ceil(0) == 1, floor(-1.0) == -2. Proved: ceil/floor are right in every other case. C11_exact gives the result for every value: an integral value of positive sign is one too large in ceil, of negative sign one too small in floor."
  },
  {
   "property": "C12",
   "status": "proved",
   "theorems": [
    "C12_neg_abs_zero"
   ],
   "note": ""
  },
  {
   "property": "C13",
   "status": "proved",
   "theorems": [
    "C13_frexp_ldexp"
   ],
   "note": ""
  },
  {
   "property": "C14",
   "status": "proved",
   "theorems": [
    "C14_add",
    "C14_sub",
    "C14_mul",
    "C14_truediv",
    "C14_truediv_zero",
    "C14_commutative",
    "C14_exact_when_representable",
    "C14_sum_of_integers"
   ],
   "note": ""
  },
  {
   "property": "C15",
   "status": "proved",
   "theorems": [
    "C15_field_assignment",
    "C15_ranges"
   ],
   "note": ""
  },
  {
   "property": "C16",
   "status": "proved",
   "theorems": [
    "C16_layout"
   ],
   "note": ""
  },
  {
   "property": "C17",
   "status": "proved",
   "theorems": [
    "C17_compile_decides"
   ],
   "note": ""
  },
  {
   "property": "C18",
   "status": "proved",
   "theorems": [
    "C18_shipped_round_trip"
   ],
   "note": ""
  },
  {
   "property": "C19",
   "status": "partial",
   "theorems": [
    "C19_any_order",
    "C19_any_order_trip",
    "C19_out_of_order_refuted",
    "C19_user_round_trip_partial"
   ],
   "note": "Fails on the code: a format whose fields are not declared in offset order (and share no offset) unpacks values into the wrong fields. Proved for formats declared in offset order and for formats with coincident fields. For formats of any declaration order without shared offsets the exact outcome is proved: the n-th declared field gets the value in the n-th place."
  },
  {
   "property": "C20",
   "status": "proved",
   "theorems": [
    "C20_unpack_rejects"
   ],
   "note": "Formats declared out of offset order are excluded here; they are the defect of C19."
  },
  {
   "property": "C21",
   "status": "proved",
   "theorems": [
    "C21_repack",
    "C21_repack_user"
   ],
   "note": ""
  },
  {
   "property": "C22",
   "status": "proved",
   "theorems": [
    "C22_coincident"
   ],
   "note": ""
  },
  {
   "property": "C23",
   "status": "proved",
   "theorems": [
    "C23_keywords",
    "C23_positional",
    "C23_unknown_keyword",
    "C23_invalid_value",
    "C23_copy",
    "C23_are_equal",
    "C23_are_equal_other_type"
   ],
   "note": ""
  },
  {
   "property": "C24",
   "status": "partial",
   "theorems": [
    "C24_inherited_refuted",
    "C24_pickle_partial",
    "C24_pickle_effect",
    "C24_other_attributes"
   ],
   "note": "Fails on the code: pickling keeps only the fields of the most derived class, so TraceHeaderRev1 loses every revision 0 field. Proved: exactly which fields survive, and full round trip for classes without a base format."
  },
  {
   "property": "C25",
   "status": "partial",
   "theorems": [
    "C25_binary_header",
    "C25_trace_header_rev0",
    "C25_source_energy_direction_refuted",
    "C25_trace_header_rev1_partial",
    "C25_disjoint_and_inside",
    "C25_packed_positions"
   ],
   "note": "Fails on the code for one field: source_energy_direction is 4 bytes (219-222), 6 in the standard (219-224). All other fields proved to match the tables."
  },
  {
   "property": "C26",
   "status": "partial",
   "theorems": [
    "C26_any_order",
    "C26_out_of_order_refuted",
    "C26_sub_format_partial"
   ],
   "note": "Fails on the code when the names are not in offset order (same cause as C19). Proved for names in offset order. For names in any order the exact outcome is proved: the n-th name gets the value in the n-th place."
  },
  {
   "property": "C27",
   "status": "proved",
   "theorems": [
    "C27_samples_round_trip",
    "C27_samples_stored",
    "C27_out_of_range",
    "C27_orders_reverse"
   ],
   "note": ""
  },
  {
   "property": "C28",
   "status": "proved",
   "theorems": [
    "C28_batched_unpadded",
    "C28_batched_padded",
    "C28_batched_rejects",
    "C28_pad"
   ],
   "note": ""
  },
  {
   "property": "C29",
   "status": "proved",
   "theorems": [
    "C29_complementary_intervals",
    "C29_complementary_intervals_defaults",
    "C29_intervals_are_contiguous"
   ],
   "note": ""
  },
  {
   "property": "C30",
   "status": "proved",
   "theorems": [
    "C30_intervals_partially_overlap"
   ],
   "note": ""
  },
  {
   "property": "C31",
   "status": "proved",
   "theorems": [
    "C31_reversed_range"
   ],
   "note": ""
  },
  {
   "property": "C32",
   "status": "proved",
   "theorems": [
    "C32_make_sorted_distinct_sequence",
    "C32_make_sorted_distinct_sequence_range",
    "C32_result_is_a_sequence",
    "C32_invalid_sense"
   ],
   "note": ""
  },
  {
   "property": "C33",
   "status": "partial",
   "theorems": [
    "C33_one_shot_refuted",
    "C33_iterator_refuted",
    "C33_empty_refuted",
    "C33_explicit_sense_partial"
   ],
   "note": "Fails on the code: with sense=None a one-shot iterator is consumed before the set is built, and an empty series raises RuntimeError. Proved: with an explicit sense the kind of iterable is irrelevant. Without a sense every one-shot iterator is refused with RuntimeError (C33_one_shot_refuted)."
  },
  {
   "property": "C34",
   "status": "partial",
   "theorems": [
    "C34_short_range_always_refuted",
    "C34_measure_stride",
    "C34_measure_stride_total",
    "C34_measure_stride_range_partial",
    "C34_short_range_refuted",
    "C34_contains_duplicates",
    "C34_is_sorted",
    "C34_is_sorted_range",
    "C34_minmax",
    "C34_all_equal"
   ],
   "note": "Fails on the code for ranges with fewer than two items: measure_stride returns the step of the range although the equal list has no stride (None). Proved for all other series. C34_short_range_always_refuted: every such range."
  },
  {
   "property": "C35",
   "status": "proved",
   "theorems": [
    "C35_items",
    "C35_len",
    "C35_membership",
    "C35_index",
    "C35_index_absent",
    "C35_set_operations",
    "C35_comparisons_and_sequence_operations"
   ],
   "note": ""
  },
  {
   "property": "C36",
   "status": "partial",
   "theorems": [
    "C36_iteration",
    "C36_getitem",
    "C36_index",
    "C36_index_absent",
    "C36_view_of_view_iteration_refuted",
    "C36_nested_items",
    "C36_nested_index",
    "C36_nested_index_refuted",
    "C36_same_index"
   ],
   "note": "Proved for a view of any list-like sequence. For a view of a view, len, indexing, membership and count are right at any depth, and index is right for an item that occurs once (C36_nested_items, C36_nested_index); iterating it, and index of any other item, raises TypeError (C36_nested_index_refuted)."
  },
  {
   "property": "C37",
   "status": "proved",
   "theorems": [
    "C37_roundrobin"
   ],
   "note": ""
  },
  {
   "property": "C38",
   "status": "proved",
   "theorems": [
    "C38_round_up",
    "C38_round_up_rejects",
    "C38_cmp_sgn"
   ],
   "note": ""
  },
  {
   "property": "C39",
   "status": "proved",
   "theorems": [
    "C39_faithful_1d",
    "C39_create_keeps_items"
   ],
   "note": ""
  },
  {
   "property": "C40",
   "status": "proved",
   "theorems": [
    "C40_faithful_2d",
    "C40_create_keeps_items"
   ],
   "note": ""
  },
  {
   "property": "C41",
   "status": "proved",
   "theorems": [
    "C41_none_iff_duplicate_1d",
    "C41_none_iff_duplicate_2d"
   ],
   "note": ""
  },
  {
   "property": "C42",
   "status": "partial",
   "theorems": [
    "C42_empty_builder_refuted"
   ],
   "note": "Fails on the code: create() on an empty builder raises RuntimeError (PEP 479: StopIteration inside pairwise)."
  },
  {
   "property": "C43",
   "status": "proved",
   "theorems": [
    "C43_key_inverts_lookup_row_major",
    "C43_key_inverts_lookup_column_major"
   ],
   "note": ""
  },
  {
   "property": "C44",
   "status": "partial",
   "theorems": [
    "C44_regular_constant",
    "C44_regular",
    "C44_linear_regular",
    "C44_grids",
    "C44_dictionary_2d",
    "C44_dictionary_repeats",
    "C44_dictionary_2d_repeats",
    "C44_stride_refuted",
    "C44_stride_zero_refuted",
    "C44_stride_negative_refuted"
   ],
   "note": "Proved for positive strides. Outside that RegularConstantCatalog and RegularCatalog fail: stride 0 always raises ZeroDivisionError rather than ValueError (C44_stride_zero_refuted), and negative strides are accepted although nothing is iterated and the length may be negative; C44_stride_negative_refuted gives the exact outcome."
  },
  {
   "property": "C45",
   "status": "proved",
   "theorems": [
    "C45_textual_round_trip"
   ],
   "note": ""
  },
  {
   "property": "C46",
   "status": "proved",
   "theorems": [
    "C46_textual_refused",
    "C46_extended_refused",
    "C46_extended_unsupported"
   ],
   "note": ""
  },
  {
   "property": "C47",
   "status": "proved",
   "theorems": [
    "C47_standard_header",
    "C47_unknown_keyword",
    "C47_unknown_revision"
   ],
   "note": ""
  },
  {
   "property": "C48",
   "status": "proved",
   "theorems": [
    "C48_format_parse",
    "C48_parse",
    "C48_parse_rejects"
   ],
   "note": ""
  },
  {
   "property": "C49",
   "status": "proved",
   "theorems": [
    "C49_extended_pages",
    "C49_text_stop",
    "C49_stop_page",
    "C49_lines_unique",
    "C49_writable",
    "C49_unsupported"
   ],
   "note": ""
  },
  {
   "property": "C50",
   "status": "partial",
   "theorems": [
    "C50_blank_lines_refuted",
    "C50_no_blank_lines_partial"
   ],
   "note": "Fails on the code: blank lines of the text vanish ('a', '', 'b' gives two header lines). Proved: every non-blank line occupies at least one header line."
  },
  {
   "property": "C51",
   "status": "proved",
   "theorems": [
    "C51_counted",
    "C51_until_end",
    "C51_contents"
   ],
   "note": ""
  },
  {
   "property": "C52",
   "status": "proved",
   "theorems": [
    "C52_counted",
    "C52_until_end"
   ],
   "note": "Also: a page that cannot be decoded as ASCII raises UnicodeDecodeError (a subclass of ValueError); the outcome relation lists all cases and is proved total and deterministic."
  },
  {
   "property": "C53",
   "status": "proved",
   "theorems": [
    "C53_decision",
    "C53_guess_common",
    "C53_nul",
    "C53_empty",
    "C53_order"
   ],
   "note": ""
  },
  {
   "property": "C54",
   "status": "proved",
   "theorems": [
    "C54_encode_decode",
    "C54_encodable_exactly",
    "C54_ebcdic_bytes",
    "C54_ascii_bytes",
    "C54_ebcdic_codes"
   ],
   "note": ""
  },
  {
   "property": "C55",
   "status": "proved",
   "theorems": [
    "C55_scan_total",
    "C55_trace_positions",
    "C55_traces_determined"
   ],
   "note": "The catalog outcome also covers the remaining cases: no trace (RuntimeError), an unacceptable field (ValueError, e.g. num_samples >= 32768), an empty file (ZeroDivisionError from the progress report)."
  },
  {
   "property": "C56",
   "status": "proved",
   "theorems": [
    "C56_write_then_read",
    "C56_exact_samples"
   ],
   "note": "Samples come back as stored_as says: unchanged for integer and IBM samples and for doubles that are single-precision numbers, else rounded to the nearest single or truncated to an IBM float."
  },
  {
   "property": "C57",
   "status": "partial",
   "theorems": [
    "C57_exact",
    "C57_no_traces_refuted",
    "C57_sample_count_refuted",
    "C57_page_count_refuted",
    "C57_leftover_refuted"
   ],
   "note": "Fails on the code in four ways (theorems _refuted). C57_exact: for a dataset whose sample type is the one its binary header names, exactly those with traces, a known revision, and right numbers of pages and samples are given back."
  },
  {
   "property": "C58",
   "status": "partial",
   "theorems": [
    "C58_not_encodable_refuted",
    "C58_conversion",
    "C58_byte_order",
    "C58_ebcdic_to_ascii_refuted"
   ],
   "note": "Fails on the code when the text has characters the target encoding lacks. Proved for every file whose text can be encoded, which is every file when the encoding stays the same. Bytes of a header that belong to no field are written as zero. C58_not_encodable_refuted: every other file gives UnicodeEncodeError, with exactly nothing or the first 3600 bytes written."
  },
  {
   "property": "C59",
   "status": "proved",
   "theorems": [
    "C59_parts",
    "C59_trace_samples",
    "C59_slices"
   ],
   "note": ""
  },
  {
   "property": "C60",
   "status": "proved",
   "theorems": [
    "C60_history_independent",
    "C60_shared_file"
   ],
   "note": ""
  },
  {
   "property": "C61",
   "status": "proved",
   "theorems": [
    "C61_index_3d"
   ],
   "note": ""
  },
  {
   "property": "C62",
   "status": "proved",
   "theorems": [
    "C62_index_2d"
   ],
   "note": ""
  },
  {
   "property": "C63",
   "status": "proved",
   "theorems": [
    "C63_dimensionality"
   ],
   "note": "One trace always has distinct pairs, so it is 3D under the heuristic; an explicit dimensionality 1 reports 1 for one trace and 0 otherwise."
  },
  {
   "property": "C64",
   "status": "partial",
   "theorems": [
    "C64_no_traces_refuted"
   ],
   "note": "Fails on the code: every such file gives RuntimeError (empty CatalogBuilder, C42)."
  },
  {
   "property": "C65",
   "status": "partial",
   "theorems": [
    "C65_read_progress_refuted",
    "C65_read_progress_values_partial"
   ],
   "note": "Fails on the code for every file that opens: values 9/8 and 21/16 are reported before the final 1. Proved: the exact series of values."
  },
  {
   "property": "C66",
   "status": "proved",
   "theorems": [
    "C66_write_progress"
   ],
   "note": ""
  },
  {
   "property": "C67",
   "status": "partial",
   "theorems": [
    "C67_eof_refuted",
    "C67_eof_partial"
   ],
   "note": "Fails on the code: read_trace_header turns every ValueError into EOFError; a zero header is enough (data_use and correlated have no member 0). Proved: for a reader the file is never too short, the cause is always an unacceptable field value."
  },
  {
   "property": "C68",
   "status": "partial",
   "theorems": [
    "C68_revision_partial",
    "C68_common_codes_refuted"
   ],
   "note": "Fails on the code for codes 1 and 100: the Revision enumeration admits only 0 and 256, so reading the binary header raises ValueError before canonicalisation. Proved: what each accepted code gives, and that every other code is refused."
  },
  {
   "property": "C69",
   "status": "proved",
   "theorems": [
    "C69_checks_in_order"
   ],
   "note": ""
  },
  {
   "property": "C70",
   "status": "partial",
   "theorems": [
    "C70_transparent_partial",
    "C70_one_path_partial",
    "C70_automatic",
    "C70_hit",
    "C70_no_cache",
    "C70_other_dimensionality_refuted",
    "C70_copy_refuted",
    "C70_derived_header_refuted",
    "C70_edited_class_refuted",
    "C70_forced_dimensionality_refuted"
   ],
   "note": "Fails on the code in five ways (theorems _refuted). Proved for every history that avoids them; C70_one_path_partial is the case of a single path whose contents change arbitrarily. SHA-1 is taken to be injective."
  },
  {
   "property": "C71",
   "status": "partial",
   "theorems": [
    "C71_rebuilt",
    "C71_opens_partial",
    "C71_unreadable_refuted",
    "C71_foreign",
    "C71_unreadable_always_refuted"
   ],
   "note": "Entries that do not unpickle are proved harmless at every crash point; a cache file that cannot be opened raises OSError. A pickle of another object raises TypeError, as documented. C71_unreadable_always_refuted: every such cache file, and nothing changes."
  },
  {
   "property": "C72",
   "status": "proved",
   "theorems": [
    "C72_hash",
    "C72_hash_injective",
    "C72_file_length",
    "C72_guess_textual_header_encoding"
   ],
   "note": "hash_for_file leaves the position at the beginning of the file instead of restoring it; no caller depends on it."
  },
  {
   "property": "C73",
   "status": "partial",
   "theorems": [
    "C73_parts",
    "C73_delegating_partial",
    "C73_members",
    "C73_reader",
    "C73_refuted"
   ],
   "note": "Fails on the code for a dataset that overrides data_sample_format; proved for all others."
  },
  {
   "property": "C74",
   "status": "partial",
   "theorems": [
    "C74_rejects",
    "C74_accepts_partial",
    "C74_everything",
    "C74_single_refuted",
    "C74_exact"
   ],
   "note": "Fails on the code: a single item of a range with a step other than 1 is refused. Proved in all other cases. C74_exact says exactly which items are accepted."
  },
  {
   "property": "C75",
   "status": "partial",
   "theorems": [
    "C75_trace_indexes",
    "C75_square_partial",
    "C75_index_refuted",
    "C75_incomplete_refuted",
    "C75_not_square",
    "C75_answer",
    "C75_no_answer"
   ],
   "note": "Fails on the code for every non-square array (division by the number of inlines) and for the strategy for incomplete arrays, which always raises. Proved for square arrays. For non-square arrays it is proved exactly which traces are placed right."
  },
  {
   "property": "C76",
   "status": "partial",
   "theorems": [
    "C76_exact",
    "C76_effect",
    "C76_unusable",
    "C76_before_start_refuted",
    "C76_wrong_length_refuted"
   ],
   "note": "Fails on the code: such formats are accepted and the packed header is longer than LENGTH_IN_BYTES. Proved: exactly such formats give a wrong length (C76_exact), by how much and where the fields end up (C76_effect), and that headers of the right length cannot be unpacked with them (C76_unusable)."
  },
  {
   "property": "C77",
   "status": "partial",
   "theorems": [
    "C77_keywords_partial",
    "C77_positional",
    "C77_no_effect",
    "C77_arguments_checked_refuted"
   ],
   "note": "Fails on the code: keywords naming a method are accepted and excess positional arguments are dropped. Proved: the exact outcome for all keywords (C77_keywords_partial) and that what is wrongly accepted has no effect on the fields."
  },
  {
   "property": "C78",
   "status": "partial",
   "theorems": [
    "C78_exact",
    "C78_scan_terminates_refuted",
    "C78_scan_terminates_partial"
   ],
   "note": "Fails on the code: a format with a signed number of samples loops for ever on a file with a count of -60. C78_exact: for formats in the order of the standard the search goes on for ever exactly if it comes to a header twice."
  },
  {
   "property": "C79",
   "status": "partial",
   "theorems": [
    "C79_lacking_refuted",
    "C79_shipped",
    "C79_rev0_format_refuted"
   ],
   "note": "Fails on the code: AttributeError, TraceHeaderRev0 has no inline_number. C79_lacking_refuted: no file can be opened with a format that lacks one of the five fields."
  },
  {
   "property": "C80",
   "status": "proved",
   "theorems": [
    "C80_round_trip",
    "C80_refused",
    "C80_stored_or_refused",
    "C80_not_both"
   ],
   "note": ""
  },
  {
   "property": "C81",
   "status": "partial",
   "theorems": [
    "C81_any_order",
    "C81_seen",
    "C81_indexed",
    "C81_custom_index_refuted"
   ],
   "note": "Fails on the code: with the inline number at byte 9 the sub-format is unpacked out of order (cause of C26). C61 and C62 prove it for formats in the order of the standard. C81_any_order, C81_seen and C81_indexed give the exact outcome for fields in any order: the n-th field create_reader looks at is read from the n-th place in which the format has one of them."
  },
  {
   "property": "C82",
   "status": "proved",
   "theorems": [
    "C82_layout",
    "C82_length"
   ],
   "note": "When the file already had more bytes, they remain behind the new contents (C57_leftover_refuted)."
  },
  {
   "property": "C83",
   "status": "proved",
   "theorems": [
    "C83_open_outcome",
    "C83_encoding_used"
   ],
   "note": ""
  },
  {
   "property": "C84",
   "status": "proved",
   "theorems": [
    "C84_trace_header",
    "C84_packer_override"
   ],
   "note": ""
  },
  {
   "property": "C85",
   "status": "proved",
   "theorems": [
    "C85_counts"
   ],
   "note": ""
  },
  {
   "property": "C86",
   "status": "partial",
   "theorems": [
    "C86_mkdir_refuted",
    "C86_unwritable_partial"
   ],
   "note": "Fails on the code when the directory cannot be created (os.makedirs is outside the try). Proved for the other failures."
  },
  {
   "property": "C87",
   "status": "partial",
   "theorems": [
    "C87_descriptor_refuted",
    "C87_descriptor",
    "C87_no_name",
    "C87_no_name_absolute_partial"
   ],
   "note": "Fails on the code for descriptor numbers with a relative cache directory, which is the default."
  },
  {
   "property": "C88",
   "status": "partial",
   "theorems": [
    "C88_slice",
    "C88_zero_step",
    "C88_descending_refuted"
   ],
   "note": "Fails on the code for negative steps applied to a range: the result is in decreasing order. Positions, and order for positive steps, are proved."
  },
  {
   "property": "C89",
   "status": "proved",
   "theorems": [
    "C89_timeslice",
    "C89_short_trace"
   ],
   "note": ""
  },
  {
   "property": "C90",
   "status": "partial",
   "theorems": [
    "C90_inline_partial",
    "C90_short_refuted",
    "C90_rows",
    "C90_backwards",
    "C90_backwards_refuted"
   ],
   "note": "Fails on the code for traces shorter than the longest: ValueError or IndexError, or a single sample repeated along the row; C90_rows says exactly when. Backward slices of samples fail when they reach sample 0, and can show another sample for a shorter trace."
  },
  {
   "property": "C91",
   "status": "partial",
   "theorems": [
    "C91_xline_partial",
    "C91_short_refuted",
    "C91_rows",
    "C91_backwards",
    "C91_backwards_refuted"
   ],
   "note": "As C90."
  },
  {
   "property": "C92",
   "status": "partial",
   "theorems": [
    "C92_trace_partial",
    "C92_short",
    "C92_no_ensemble",
    "C92_plain_refuted",
    "C92_3d_refuted",
    "C92_2d_refuted",
    "C92_outside"
   ],
   "note": "Fails on the code for plain and 3D readers (always an exception) and for trace indexes that are not CDP numbers of a 2D reader. Proved for the rest. An ensemble number outside the trace indexes gives KeyError."
  },
  {
   "property": "C93",
   "status": "partial",
   "theorems": [
    "C93_headers_partial",
    "C93_bad_field",
    "C93_fields_3d_partial",
    "C93_order_refuted",
    "C93_unsigned_refuted",
    "C93_any_order",
    "C93_any_order_misread",
    "C93_unsigned",
    "C93_unknown",
    "C93_repeated",
    "C93_any_order_3d",
    "C93_unsigned_3d"
   ],
   "note": "Fails on the code when fields are not named in the order in which they are stored (values swapped, see C26) and for unsigned fields (ValueError). Proved otherwise. For names in any order, unsigned, unknown and repeated names the exact outcome is proved."
  },
  {
   "property": "C94",
   "status": "proved",
   "theorems": [
    "C94_first_last"
   ],
   "note": ""
  },
  {
   "property": "C95",
   "status": "proved",
   "theorems": [
    "C95_corners"
   ],
   "note": ""
  },
  {
   "property": "C96",
   "status": "partial",
   "theorems": [
    "C96_defaults_rev0",
    "C96_standard_values_refuted",
    "C96_standard_values_partial",
    "C96_other_values",
    "C96_tolerated",
    "C96_zero",
    "C96_defaults"
   ],
   "note": "Fails on the code for two fields: data_sample_format refuses code 4 (fixed point with gain) and datum_elevation_at_receiver_group refuses negative elevations. Proved for all other fields of the tables."
  },
  {
   "property": "C97",
   "status": "partial",
   "theorems": [
    "C97_byte_order_partial",
    "C97_ibm_refuted"
   ],
   "note": "Fails on the code for IBM floats: they are always written and read most significant byte first, whatever the byte order. Proved for the other sample types."
  },
  {
   "property": "C98",
   "status": "proved",
   "theorems": [
    "C98_directory",
    "C98_nothing_else"
   ],
   "note": ""
  },
  {
   "property": "C99",
   "status": "proved",
   "theorems": [
    "C99_opening",
    "C99_reading"
   ],
   "note": ""
  },
  {
   "property": "C100",
   "status": "proved",
   "theorems": [
    "C100_reel_headers",
    "C100_traces",
    "C100_reading"
   ],
   "note": ""
  },
  {
   "property": "C101",
   "status": "partial",
   "theorems": [
    "C101_sample_types",
    "C101_samples_partial",
    "C101_large_refuted",
    "C101_exact",
    "C101_fields"
   ],
   "note": "Fails on the code for IBM floats of 2^128 and more and for those that are no multiple of 2^-149: single floats cannot hold them. Exactly these are excluded (C101_exact); proved for all other samples and for header fields."
  },
  {
   "property": "C102",
   "status": "partial",
   "theorems": [
    "C102_any_float",
    "C102_any_truediv",
    "C102_any_int",
    "C102_float_truediv_refuted",
    "C102_float_truediv_overflow_refuted",
    "C102_float_partial",
    "C102_float_truediv_partial",
    "C102_int",
    "C102_both_ibm",
    "C102_nonfinite"
   ],
   "note": "Fails on the code for a float divided by an IBMFloat, which gives an IBMFloat (digits lost, OverflowError). Proved for every other operator and operand order."
  },
  {
   "property": "C103",
   "status": "partial",
   "theorems": [
    "C103_any_floordiv",
    "C103_any_mod",
    "C103_floordiv_refuted",
    "C103_mod_refuted",
    "C103_floordiv_partial",
    "C103_floordiv_exact",
    "C103_floordiv_float",
    "C103_floordiv_nonfinite",
    "C103_mod_partial",
    "C103_mod_rounded",
    "C103_mod_by_float",
    "C103_mod_of_float",
    "C103_mod_by_infinity",
    "C103_by_zero"
   ],
   "note": "Fails on the code for large quotients (rounded to a double before the floor is taken) and for remainders of operands of different sign (rounded up to the divisor). Proved for quotients below 2^28, operands of the same sign, and floats."
  },
  {
   "property": "C104",
   "status": "proved",
   "theorems": [
    "C104_digits",
    "C104_round"
   ],
   "note": ""
  },
  {
   "property": "C105",
   "status": "partial",
   "theorems": [
    "C105_any_int",
    "C105_int_refuted",
    "C105_int_error_refuted",
    "C105_float",
    "C105_nonfinite",
    "C105_int_partial",
    "C105_large_int_partial",
    "C105_int_exact"
   ],
   "note": "Fails on the code for ints beyond 2^53, which are rounded to a double first. Proved for floats and other ints; for large ints one direction is proved, and exactly which ints are refused."
  },
  {
   "property": "C106",
   "status": "partial",
   "theorems": [
    "C106_copy_partial",
    "C106_identical_partial",
    "C106_needed",
    "C106_unassigned_refuted",
    "C106_trailing_refuted"
   ],
   "note": "Fails on the code for header bytes outside all fields (written as zero) and bytes after the last trace (dropped). Proved for files without such bytes; these conditions are shown to be necessary."
  },
  {
   "property": "C107",
   "status": "partial",
   "theorems": [
    "C107_plain",
    "C107_bounds",
    "C107_enum",
    "C107_fits_partial",
    "C107_packs_partial",
    "C107_beyond_refuted"
   ],
   "note": "Fails on the code for field types declared with bounds beyond their C type. Proved for all others."
  },
  {
   "property": "C108",
   "status": "partial",
   "theorems": [
    "C108_assignment",
    "C108_exact_partial",
    "C108_fraction_refuted",
    "C108_other"
   ],
   "note": "Fails on the code for numbers with a fraction, which is dropped. Proved for integral numbers; the outcome is proved for all."
  },
  {
   "property": "C109",
   "status": "proved",
   "theorems": [
    "C109_same",
    "C109_accepts",
    "C109_custom",
    "C109_usable"
   ],
   "note": ""
  },
  {
   "property": "C110",
   "status": "proved",
   "theorems": [
    "C110_own_header",
    "C110_others",
    "C110_fresh"
   ],
   "note": ""
  },
  {
   "property": "C111",
   "status": "partial",
   "theorems": [
    "C111_only",
    "C111_parts",
    "C111_converted_partial",
    "C111_too_large_refuted",
    "C111_infinite_refuted",
    "C111_nonnegative_refuted"
   ],
   "note": "Fails on the code for IBM samples beyond the range of 32-bit floats, for NaN and infinities converted to integers or IBM floats, and for the non-negative types. Proved for all other samples and every pair of sample types. C111_only: nothing is written unless every sample is convertible."
  },
  {
   "property": "C112",
   "status": "partial",
   "theorems": [
    "C112_parts",
    "C112_any_factor",
    "C112_product",
    "C112_unfit_refuted",
    "C112_scaled_partial",
    "C112_one",
    "C112_underflow_refuted",
    "C112_overflow_refuted",
    "C112_nan_refuted",
    "C112_largest_refuted"
   ],
   "note": "Fails on the code for IBM products that underflow, overflowing products of integers, NaN, infinities and the largest floats. C112_any_factor gives, for every factor, exactly which files can be written and what is read back; C112_unfit_refuted what the other samples do."
  },
  {
   "property": "C113",
   "status": "proved",
   "theorems": [
    "C113_parts",
    "C113_any_factor",
    "C113_misplaced",
    "C113_scaled",
    "C113_beyond"
   ],
   "note": ""
  },
  {
   "property": "C114",
   "status": "partial",
   "theorems": [
    "C114_slice",
    "C114_outside",
    "C114_cut_off",
    "C114_dimensionality_refuted"
   ],
   "note": "Fails on the code for files that are not three-dimensional: formatting the message of the DimensionalityError raises KeyError. Proved otherwise."
  },
  {
   "property": "C115",
   "status": "proved",
   "theorems": [
    "C115_metadata",
    "C115_report"
   ],
   "note": ""
  },
  {
   "property": "C116",
   "status": "proved",
   "theorems": [
    "C116_positions",
    "C116_bad_header"
   ],
   "note": ""
  },
  {
   "property": "C117",
   "status": "proved",
   "theorems": [
    "C117_initial",
    "C117_initial_fails",
    "C117_history_1d",
    "C117_history_2d",
    "C117_order_1d",
    "C117_order_2d"
   ],
   "note": ""
  },
  {
   "property": "C118",
   "status": "proved",
   "theorems": [
    "C118_views_1d",
    "C118_views_2d",
    "C118_equality_1d",
    "C118_equality_2d"
   ],
   "note": ""
  },
  {
   "property": "C119",
   "status": "partial",
   "theorems": [
    "C119_outcome",
    "C119_custom_partial",
    "C119_bytes",
    "C119_nan_refuted",
    "C119_unseen_refuted",
    "C119_compare",
    "C119_equality",
    "C119_fewer"
   ],
   "note": "Fails on the code for samples that are not a number, which differ from themselves; C119_outcome gives the exact outcome. The comparison does not see bytes 223 and 224 of a trace header, which belong to no field (see C25). C119_fewer: what happens if the second file has fewer traces."
  },
  {
   "property": "C120",
   "status": "partial",
   "theorems": [
    "C120_steps",
    "C120_answers",
    "C120_ends",
    "C120_attributes",
    "C120_finish",
    "C120_contents",
    "C120_shared_refuted"
   ],
   "note": "Fails on the code for two threads that read traces through one file object (C120_shared_refuted): seek and read are two steps. Proved for threads with file objects of their own, and for all calls that do not read traces."
  },
  {
   "property": "C121",
   "status": "partial",
   "theorems": [
    "C121_outcome_partial",
    "C121_entry_partial",
    "C121_together",
    "C121_ends",
    "C121_heals",
    "C121_vanished_refuted",
    "C121_holes_refuted",
    "C121_holes_stay_refuted",
    "C121_mixed_refuted"
   ],
   "note": "Fails on the code: FileNotFoundError between exists() and open() (C121_vanished_refuted), zeros in a cache file that two processes write at once (C121_holes_refuted), mixtures of different pickles (C121_mixed_refuted). Proved for histories in which no process opens the cache file for writing while another is writing it; that calls end and that the file is whole when no process dies is proved for all histories."
  },
  {
   "property": "C122",
   "status": "partial",
   "theorems": [
    "C122_opened",
    "C122_short",
    "C122_guess",
    "C122_cache",
    "C122_written",
    "C122_offset_refuted",
    "C122_write_offset_refuted"
   ],
   "note": "Fails on the code: data that does not begin at byte 0 is misread and miswritten, although both functions document that the position of the file object counts (C122_offset_refuted, C122_write_offset_refuted). What happens at other positions is proved for all files, datasets and positions."
  },
  {
   "property": "C123",
   "status": "proved",
   "theorems": [
    "C123_usage",
    "C123_pack",
    "C123_packer",
    "C123_pickle"
   ],
   "note": ""
  },
  {
   "property": "C124",
   "status": "partial",
   "theorems": [
    "C124_in_place",
    "C124_examples",
    "C124_wider_refuted",
    "C124_leftover_refuted",
    "C124_same_object_refuted"
   ],
   "note": "Fails on the code: wider samples overwrite traces that have not been read yet (C124_wider_refuted), the file is not cut off after a shorter dataset (C124_leftover_refuted), and a reader's own file object cannot be written to (C124_same_object_refuted). Where the dataset needs no more room, the property is proved."
  },
  {
   "property": "C125",
   "status": "partial",
   "theorems": [
    "C125_usage",
    "C125_not_opened",
    "C125_opening",
    "C125_refused",
    "C125_opened",
    "C125_copied",
    "C125_identical",
    "C125_converted",
    "C125_scaled",
    "C125_coordinates",
    "C125_same_file_refuted",
    "C125_lost_output_refuted",
    "C125_not_converted_refuted",
    "C125_exit"
   ],
   "note": "Fails on the code: input and output may be one file, which is then emptied (C125_same_file_refuted); an existing output is emptied although nothing can be written to it (C125_lost_output_refuted, C125_not_converted_refuted). Everything else is proved for all arguments, file systems and contents. C125_opening and C125_refused say which paths can be opened. C125_exit says exactly when the exit code is 0."
  },
  {
   "property": "C126",
   "status": "partial",
   "theorems": [
    "C126_increasing",
    "C126_writing",
    "C126_near",
    "C126_exact_refuted",
    "C126_reading_refuted"
   ],
   "note": "Fails on the code: a whole percentage may be shown as one less (C126_exact_refuted), and while a file is opened 112 and 131 percent are shown (C126_reading_refuted). The claims on writing are proved for all datasets."
  },
  {
   "property": "C127",
   "status": "proved",
   "theorems": [
    "C127_usage",
    "C127_not_opened",
    "C127_unchanged",
    "C127_code",
    "C127_custom",
    "C127_custom_more",
    "C127_slice_not_opened",
    "C127_slice_none",
    "C127_slice_saved",
    "C127_npy_name"
   ],
   "note": "Proved for all arguments, file systems and contents (C127_code, C127_unchanged). What np.save writes is any function of the sample type and the array (C127_slice_saved)."
  },
  {
   "property": "C128",
   "status": "partial",
   "theorems": [
    "C128_symmetric",
    "C128_nan",
    "C128_exact_partial",
    "C128_close",
    "C128_reflexive",
    "C128_error",
    "C128_default",
    "C128_ibm",
    "C128_small_refuted",
    "C128_infinity_refuted"
   ],
   "note": "Fails on the code when both numbers are below 1 (C128_small_refuted: the difference is rounded before it is compared) and for infinities (C128_infinity_refuted). Proved exactly when one of the two is at least 1 in magnitude (C128_exact_partial); C128_close and C128_error hold for all finite numbers."
  },
  {
   "property": "C129",
   "status": "partial",
   "theorems": [
    "C129_header_partial",
    "C129_distinguishes",
    "C129_redefined_refuted",
    "C129_shipped",
    "C129_regular_constant",
    "C129_linear_refuted",
    "C129_set",
    "C129_ibm",
    "C129_ibm_bytes"
   ],
   "note": "Proved for headers whose format declares no field twice (C129_header_partial) and for RegularConstantCatalog, SortedFrozenSet and IBM floats; fails on the code for redefined fields (C129_redefined_refuted) and for LinearRegularCatalog (C129_linear_refuted). repr of a Python float is a parameter of C129_ibm."
  },
  {
   "property": "C130",
   "status": "partial",
   "theorems": [
    "C130_order",
    "C130_outcome",
    "C130_all_fields_partial",
    "C130_described",
    "C130_extent",
    "C130_all_fields_refuted",
    "C130_mixin_refuted",
    "C130_inherits"
   ],
   "note": "The order and the outcome are proved for all hierarchies (C130_order, C130_outcome); that all fields are there is proved for single inheritance (C130_all_fields_partial) and fails on the code for several bases (C130_all_fields_refuted) and for a mixin that comes first (C130_mixin_refuted)."
  },
  {
   "property": "C131",
   "status": "partial",
   "theorems": [
    "C131_fields_partial",
    "C131_names_partial",
    "C131_attributes",
    "C131_attributes_partial",
    "C131_refuted",
    "C131_fields_refuted",
    "C131_made",
    "C131_refused",
    "C131_made_refuted",
    "C131_copy_refuted",
    "C131_final"
   ],
   "note": "What a sub-format gets is proved for all hierarchies (C131_attributes); agreement with the parent is proved for attributes that the hierarchy gives one value (C131_attributes_partial) and for fields that no class gives another meaning (C131_fields_partial, C131_names_partial); it fails on the code otherwise (C131_refuted, C131_fields_refuted). Which sub-formats can be made is proved in both directions (C131_made, C131_refused) and fails for fields of mixins (C131_made_refuted); copy() is always that of BaseHeader (C131_copy_refuted)."
  },
  {
   "property": "C132",
   "status": "proved",
   "theorems": [
    "C132_exact",
    "C132_square",
    "C132_integers",
    "C132_zero",
    "C132_any",
    "C132_fraction"
   ],
   "note": "C's pow and Python's complex power are parameters. C132_exact, C132_square and C132_integers ask that pow finds those powers that are floats; the others ask nothing."
  },
  {
   "property": "C133",
   "status": "proved",
   "theorems": [
    "C133_opening",
    "C133_through_traces",
    "C133_header",
    "C133_samples"
   ],
   "note": ""
  },
  {
   "property": "C134",
   "status": "proved",
   "theorems": [
    "C134_samples",
    "C134_header"
   ],
   "note": ""
  },
  {
   "property": "C135",
   "status": "proved",
   "theorems": [
    "C135_parts",
    "C135_same",
    "C135_one_trace",
    "C135_more_traces"
   ],
   "note": ""
  },
  {
   "property": "C136",
   "status": "partial",
   "theorems": [
    "C136_operators",
    "C136_comparisons",
    "C136_isdisjoint",
    "C136_equality_refuted",
    "C136_equality",
    "C136_add"
   ],
   "note": "C136_equality_refuted: a SortedFrozenSet and a set with the same items are subsets of each other and not equal. C136_equality states what == gives; the other parts are proved as stated."
  },
  {
   "property": "C137",
   "status": "proved",
   "theorems": [
    "C137_operations",
    "C137_prefix",
    "C137_anywhere",
    "C137_progress",
    "C137_reading"
   ],
   "note": ""
  },
  {
   "property": "C138",
   "status": "proved",
   "theorems": [
    "C138_values",
    "C138_trace_header",
    "C138_binary_reel_header"
   ],
   "note": ""
  },
  {
   "property": "C139",
   "status": "proved",
   "theorems": [
    "C139_plan",
    "C139_stopped",
    "C139_input",
    "C139_anywhere"
   ],
   "note": ""
  },
  {
   "property": "C140",
   "status": "proved",
   "theorems": [
    "C140_headers",
    "C140_samples",
    "C140_while_written"
   ],
   "note": ""
  },
  {
   "property": "C141",
   "status": "proved",
   "theorems": [
    "C141_steps",
    "C141_one_moment",
    "C141_while_written",
    "C141_hash_steps",
    "C141_hash"
   ],
   "note": ""
  },
  {
   "property": "C142",
   "status": "partial",
   "theorems": [
    "C142_hash",
    "C142_steps",
    "C142_whole",
    "C142_samples",
    "C142_header",
    "C142_opening_partial",
    "C142_traces_partial",
    "C142_opening_refuted",
    "C142_writing_refuted",
    "C142_writing_partial"
   ],
   "note": "The property is false of create_reader (C142_opening_refuted: a short read of a trace header ends the scan, and the reader lacks the rest of the traces) and of write_segy (C142_writing_refuted: it returns normally although bytes were not taken). Proved: trace_header and trace_samples give the right result or EOFError; opening gives the reader or the exception of a beginning of the file, or EOFError or ValueError, and its traces are the first of those of the file; reads and writes that are complete give what they should."
  },
  {
   "property": "C143",
   "status": "partial",
   "theorems": [
    "C143_steps",
    "C143_one_moment",
    "C143_entries_partial",
    "C143_cache_refuted"
   ],
   "note": "The reader and the exceptions are those of one moment (C143_one_moment). The claim about the cache is refuted: the file is hashed before it is scanned (C143_cache_refuted); C143_entries_partial says what can be kept where."
  },
  {
   "property": "C144",
   "status": "partial",
   "theorems": [
    "C144_bytes",
    "C144_any",
    "C144_canonical",
    "C144_distinct_partial",
    "C144_distinct_refuted"
   ],
   "note": "Everything but distinctness is proved in full. That different codes have different decimal forms is refuted (C144_distinct_refuted) and proved for codes whose second byte is below ten (C144_distinct_partial)."
  },
  {
   "property": "C145",
   "status": "proved",
   "theorems": [
    "C145_camelcase",
    "C145_capitalized",
    "C145_words",
    "C145_no_underscore",
    "C145_sentence",
    "C145_lower_first",
    "C145_magic"
   ],
   "note": ""
  },
  {
   "property": "C146",
   "status": "proved",
   "theorems": [
    "C146_helpers",
    "C146_format_sizes",
    "C146_struct_sizes",
    "C146_spacing"
   ],
   "note": ""
  },
  {
   "property": "C147",
   "status": "proved",
   "theorems": [
    "C147_same_readings",
    "C147_by_way",
    "C147_again",
    "C147_back"
   ],
   "note": ""
  },
  {
   "property": "C148",
   "status": "proved",
   "theorems": [
    "C148_exact",
    "C148_ibm_float",
    "C148_integers",
    "C148_back",
    "C148_same_integer"
   ],
   "note": ""
  },
  {
   "property": "C149",
   "status": "proved",
   "theorems": [
    "C149_item",
    "C149_range",
    "C149_index",
    "C149_slice",
    "C149_zero_step",
    "C149_whole"
   ],
   "note": ""
  },
  {
   "property": "C150",
   "status": "proved",
   "theorems": [
    "C150_exact",
    "C150_sixteen",
    "C150_back"
   ],
   "note": ""
  },
  {
   "property": "C151",
   "status": "proved",
   "theorems": [
    "C151_exact",
    "C151_back"
   ],
   "note": ""
  },
  {
   "property": "C152",
   "status": "proved",
   "theorems": [
    "C152_minmax",
    "C152_minmax_empty",
    "C152_sorted",
    "C152_sum",
    "C152_sum_exact",
    "C152_sum_empty",
    "C152_encoded_sorted",
    "C152_encoded_extremes"
   ],
   "note": ""
  }
 ]
}