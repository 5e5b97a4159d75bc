{
 "claims": [
  {
   "property": "C01",
   "status": "proved",
   "theorems": [
    "C01_encoders_total"
   ],
   "note": ""
  },
  {
   "property": "C02",
   "status": "proved",
   "theorems": [
    "C02_decoders_total"
   ],
   "note": ""
  },
  {
   "property": "C03",
   "status": "proved",
   "theorems": [
    "C03_decoder_output_well_formed"
   ],
   "note": ""
  },
  {
   "property": "C04",
   "status": "proved",
   "theorems": [
    "C04_char_boundaries"
   ],
   "note": ""
  },
  {
   "property": "C05",
   "status": "proved",
   "theorems": [
    "C05_encode_frame",
    "C05_decode_frame"
   ],
   "note": ""
  },
  {
   "property": "C06",
   "status": "proved",
   "theorems": [
    "C06_encode_ok_exact"
   ],
   "note": ""
  },
  {
   "property": "C07",
   "status": "proved",
   "theorems": [
    "C07_encode_maximal"
   ],
   "note": ""
  },
  {
   "property": "C08",
   "status": "proved",
   "theorems": [
    "C08_encode_error_exact"
   ],
   "note": ""
  },
  {
   "property": "C09",
   "status": "proved",
   "theorems": [
    "C09_utf_encoders_never_fail",
    "C09_utf_encoders_complete"
   ],
   "note": ""
  },
  {
   "property": "C10",
   "status": "proved",
   "theorems": [
    "C10_encode_succeeds_iff_representable",
    "C10_encode_enough"
   ],
   "note": ""
  },
  {
   "property": "C11",
   "status": "proved",
   "theorems": [
    "C11_decode_ok_exact"
   ],
   "note": ""
  },
  {
   "property": "C12",
   "status": "proved",
   "theorems": [
    "C12_decode_maximal"
   ],
   "note": ""
  },
  {
   "property": "C13",
   "status": "proved",
   "theorems": [
    "C13_decode_error_start_exact"
   ],
   "note": ""
  },
  {
   "property": "C14",
   "status": "proved",
   "theorems": [
    "C14_decode_error_extent"
   ],
   "note": ""
  },
  {
   "property": "C15",
   "status": "proved",
   "theorems": [
    "C15_exactly_valid_data_decodes",
    "C15_decode_enough"
   ],
   "note": ""
  },
  {
   "property": "C16",
   "status": "proved",
   "theorems": [
    "C16_utf_round_trip_from_text"
   ],
   "note": ""
  },
  {
   "property": "C17",
   "status": "proved",
   "theorems": [
    "C17_utf_round_trip_from_bytes"
   ],
   "note": ""
  },
  {
   "property": "C18",
   "status": "proved",
   "theorems": [
    "C18_byte_decodes_as_listed",
    "C18_char_encodes_as_listed",
    "C18_round_trip_from_text",
    "C18_round_trip_from_bytes"
   ],
   "note": ""
  },
  {
   "property": "C19",
   "status": "proved",
   "theorems": [
    "C19_big5_lossless"
   ],
   "note": ""
  },
  {
   "property": "C20",
   "status": "partial",
   "theorems": [
    "C20_shift_jis_lossless_partial",
    "C20_shift_jis_lossless_refuted"
   ],
   "note": "The documented promise is false: refuted with U+00A5. Proved for text without U+00A5, U+203E, U+2212; the exact behaviour on all text is C45."
  },
  {
   "property": "C21",
   "status": "proved",
   "theorems": [
    "C21_decoded_text_is_stable"
   ],
   "note": ""
  },
  {
   "property": "C22",
   "status": "proved",
   "theorems": [
    "C22_streaming_encode_complete",
    "C22_streaming_encode_error",
    "C22_streaming_encode_prefix"
   ],
   "note": ""
  },
  {
   "property": "C23",
   "status": "proved",
   "theorems": [
    "C23_streaming_decode_complete",
    "C23_streaming_decode_error",
    "C23_streaming_decode_prefix",
    "C23_utf8_error_end_depends_on_chunking_refuted"
   ],
   "note": ""
  },
  {
   "property": "C24",
   "status": "proved",
   "theorems": [
    "C24_encode_progress",
    "C24_decode_progress",
    "C24_encode_loop_terminates",
    "C24_decode_loop_terminates"
   ],
   "note": ""
  },
  {
   "property": "C25",
   "status": "proved",
   "theorems": [
    "C25_recovery_is_replacement_decoding",
    "C25_recovery_terminates",
    "C25_recovery_loop"
   ],
   "note": ""
  },
  {
   "property": "C26",
   "status": "partial",
   "theorems": [
    "C26_utf8_error_covers_no_valid_text_partial",
    "C26_utf8_error_covers_no_valid_text_refuted"
   ],
   "note": "False as stated: refuted with [E3, 41]. Proved for is_end = false, and for is_end = true unless the input ends before the length announced by the lead byte at the start of the range."
  },
  {
   "property": "C27",
   "status": "proved",
   "theorems": [
    "C27_ascii_transparent"
   ],
   "note": ""
  },
  {
   "property": "C28",
   "status": "proved",
   "theorems": [
    "C28_latin1_decode",
    "C28_latin1_encode"
   ],
   "note": ""
  },
  {
   "property": "C29",
   "status": "proved",
   "theorems": [
    "C29_utf16_decode_mirrors",
    "C29_utf32_decode_mirrors",
    "C29_utf16_encode_mirrors",
    "C29_utf32_encode_mirrors"
   ],
   "note": ""
  },
  {
   "property": "C30",
   "status": "proved",
   "theorems": [
    "C30_encode_larger_buffer",
    "C30_decode_larger_buffer"
   ],
   "note": ""
  },
  {
   "property": "C31",
   "status": "proved",
   "theorems": [
    "C31_encode_ignores_old_contents",
    "C31_decode_ignores_old_contents"
   ],
   "note": ""
  },
  {
   "property": "C32",
   "status": "proved",
   "theorems": [
    "C32_encode_is_end",
    "C32_decode_is_end"
   ],
   "note": ""
  },
  {
   "property": "C33",
   "status": "partial",
   "theorems": [
    "C33_big5_encodes_as_whatwg_partial",
    "C33_big5_encodes_as_whatwg_refuted"
   ],
   "note": "False as stated: refuted with U+8005. Proved for text without the 57 characters of big5_deviations; that exactly these deviate is C46."
  },
  {
   "property": "C34",
   "status": "proved",
   "theorems": [
    "C34_shift_jis_encodes_as_whatwg",
    "C34_shift_jis_rejects_the_rest",
    "C34_eudc_is_additional"
   ],
   "note": ""
  },
  {
   "property": "C35",
   "status": "proved",
   "theorems": [
    "C35_big5_pairs_follow_the_index",
    "C35_shift_jis_pairs_follow_the_index"
   ],
   "note": ""
  },
  {
   "property": "C36",
   "status": "proved",
   "theorems": [
    "C36_cause_is_invalid_data"
   ],
   "note": ""
  },
  {
   "property": "C37",
   "status": "proved",
   "theorems": [
    "C37_error_ranges_contain_no_ascii"
   ],
   "note": ""
  },
  {
   "property": "C38",
   "status": "proved",
   "theorems": [
    "C38_single_byte_search",
    "C38_big5_search",
    "C38_shift_jis_search",
    "C38_tables_strictly_increasing",
    "C38_finds_exactly_the_entries"
   ],
   "note": ""
  },
  {
   "property": "C39",
   "status": "proved",
   "theorems": [
    "C39_pair_encoded_together",
    "C39_pair_encoded_together_streaming",
    "C39_only_the_letters_are_held_back"
   ],
   "note": ""
  },
  {
   "property": "C40",
   "status": "proved",
   "theorems": [
    "C40_encoding_is_injective",
    "C40_shift_jis_injective_refuted"
   ],
   "note": ""
  },
  {
   "property": "C41",
   "status": "proved",
   "theorems": [
    "C41_utf8_encode_copies",
    "C41_utf8_decode_copies"
   ],
   "note": ""
  },
  {
   "property": "C42",
   "status": "proved",
   "theorems": [
    "C42_decode_error_not_lost",
    "C42_encode_error_not_lost"
   ],
   "note": ""
  },
  {
   "property": "C43",
   "status": "proved",
   "theorems": [
    "C43_encode_buffer_enough",
    "C43_decode_buffer_enough",
    "C43_factors_are_tight"
   ],
   "note": ""
  },
  {
   "property": "C44",
   "status": "proved",
   "theorems": [
    "C44_big5_tables",
    "C44_shift_jis_tables",
    "C44_single_byte_tables"
   ],
   "note": ""
  },
  {
   "property": "C45",
   "status": "proved",
   "theorems": [
    "C45_shift_jis_round_trip_exact"
   ],
   "note": ""
  },
  {
   "property": "C46",
   "status": "proved",
   "theorems": [
    "C46_big5_deviations_exact",
    "C46_big5_deviations_bytes",
    "C46_big5_additional_characters"
   ],
   "note": ""
  },
  {
   "property": "C47",
   "status": "proved",
   "theorems": [
    "C47_big5_script",
    "C47_shift_jis_script",
    "C47_line_order",
    "C47_big5_bytes_index",
    "C47_shift_jis_bytes_index",
    "C47_tables_agree"
   ],
   "note": ""
  },
  {
   "property": "C48",
   "status": "partial",
   "theorems": [
    "C48_rejects_exactly",
    "C48_decode_table",
    "C48_encode_entries",
    "C48_encode_table_sorted_partial",
    "C48_removes_duplicates_refuted"
   ],
   "note": "False as stated: `seen &= {x}` keeps the set empty, so duplicates stay (refuted with a file mapping 0x80 and 0x81 to U+00A0). Proved: exactly which files are rejected, the decode table, the exact set of encode entries, and strict sorting for files without duplicate code points above 0x7F."
  },
  {
   "property": "C49",
   "status": "proved",
   "theorems": [
    "C49_utf8_recovery",
    "C49_utf8_replacement_unique",
    "C49_utf8_recovery_loop"
   ],
   "note": ""
  },
  {
   "property": "C50",
   "status": "proved",
   "theorems": [
    "C50_utf8_recovery_near_whatwg",
    "C50_utf8_recovery_whatwg_if_not_cut",
    "C50_whatwg_utf8_decodes",
    "C50_utf8_recovery_is_whatwg_refuted"
   ],
   "note": ""
  },
  {
   "property": "C51",
   "status": "proved",
   "theorems": [
    "C51_streaming_recovery",
    "C51_streaming_recovery_utf8",
    "C51_streaming_recovery_utf8_exact_refuted"
   ],
   "note": ""
  },
  {
   "property": "C52",
   "status": "proved",
   "theorems": [
    "C52_unicode_roundtrip_tests",
    "C52_single_byte_roundtrip_test",
    "C52_single_byte_roundtrip_tests",
    "C52_decode_random_bytes_tests",
    "C52_encode_random_text_tests",
    "C52_wrapper_example",
    "C52_doc_examples"
   ],
   "note": ""
  },
  {
   "property": "C53",
   "status": "proved",
   "theorems": [
    "C53_test_data_generated",
    "C53_tests_pass_on_generated_data",
    "C53_tests_pass_on_checked_in_data"
   ],
   "note": ""
  },
  {
   "property": "C54",
   "status": "proved",
   "theorems": [
    "C54_index_files",
    "C54_mapping_files",
    "C54_every_table_has_a_file"
   ],
   "note": ""
  },
  {
   "property": "C55",
   "status": "proved",
   "theorems": [
    "C55_big5_script",
    "C55_shift_jis_script",
    "C55_single_byte_script",
    "C55_tokens_unique"
   ],
   "note": ""
  },
  {
   "property": "C56",
   "status": "proved",
   "theorems": [
    "C56_big5_files",
    "C56_shift_jis_files",
    "C56_single_byte_files"
   ],
   "note": ""
  },
  {
   "property": "C57",
   "status": "proved",
   "theorems": [
    "C57_substitution",
    "C57_substitution_unique",
    "C57_substitution_loop",
    "C57_nothing_to_substitute",
    "C57_substitutes_are_text",
    "C57_substituted_decodes"
   ],
   "note": ""
  },
  {
   "property": "C58",
   "status": "proved",
   "theorems": [
    "C58_shift_jis_substitution",
    "C58_big5_substitution",
    "C58_single_byte_substitution"
   ],
   "note": ""
  },
  {
   "property": "C59",
   "status": "proved",
   "theorems": [
    "C59_encoders_do_not_overflow",
    "C59_decoders_do_not_overflow",
    "C59_encoders_word_size",
    "C59_decoders_word_size"
   ],
   "note": ""
  },
  {
   "property": "C60",
   "status": "proved",
   "theorems": [
    "C60_encode_complete",
    "C60_decode_complete",
    "C60_encode_one_outcome",
    "C60_decode_one_outcome"
   ],
   "note": ""
  },
  {
   "property": "C61",
   "status": "proved",
   "theorems": [
    "C61_conversion",
    "C61_conversion_from_utf8",
    "C61_conversion_of_valid_data",
    "C61_conversion_without_loss",
    "C61_progress"
   ],
   "note": ""
  },
  {
   "property": "C62",
   "status": "proved",
   "theorems": [
    "C62_included_files",
    "C62_single_byte_run",
    "C62_single_byte_failure",
    "C62_single_byte_regenerate",
    "C62_single_byte_not_ascii",
    "C62_single_byte_rerun",
    "C62_big5_run",
    "C62_big5_failure",
    "C62_big5_regenerate",
    "C62_big5_rerun",
    "C62_shift_jis_run",
    "C62_shift_jis_failure",
    "C62_shift_jis_regenerate",
    "C62_shift_jis_rerun",
    "C62_repository_tables",
    "C62_repository_scripts",
    "C62_repository_tests"
   ],
   "note": ""
  },
  {
   "property": "C63",
   "status": "proved",
   "theorems": [
    "C63_decode_local",
    "C63_decode_local_utf8",
    "C63_utf8_error_end_unbounded",
    "C63_encode_local",
    "C63_decode_bound_tight",
    "C63_encode_bound_tight"
   ],
   "note": ""
  },
  {
   "property": "C64",
   "status": "proved",
   "theorems": [
    "C64_from_u32",
    "C64_encode_utf8",
    "C64_len_utf16",
    "C64_char_indices",
    "C64_is_char_boundary",
    "C64_from_utf8",
    "C64_from_utf8_unchecked",
    "C64_to_bytes",
    "C64_from_bytes",
    "C64_chunks",
    "C64_binary_search",
    "C64_copy_from_slice",
    "C64_indexing"
   ],
   "note": ""
  },
  {
   "property": "C65",
   "status": "proved",
   "theorems": [
    "C65_reencode",
    "C65_replacement_unique",
    "C65_unchanged_iff",
    "C65_no_changes",
    "C65_big5_changes",
    "C65_shift_jis_changes"
   ],
   "note": ""
  },
  {
   "property": "C66",
   "status": "proved",
   "theorems": [
    "C66_source_encoders",
    "C66_source_decoders",
    "C66_source_encode_complete",
    "C66_source_decode_complete",
    "C66_source_encoders_total",
    "C66_source_decoders_total"
   ],
   "note": ""
  },
  {
   "property": "C67",
   "status": "proved",
   "theorems": [
    "C67_wrapper_encode",
    "C67_wrapper_decode",
    "C67_wrapper_encode_complete",
    "C67_wrapper_decode_complete",
    "C67_wrapper_main"
   ],
   "note": ""
  },
  {
   "property": "C68",
   "status": "proved",
   "theorems": [
    "C68_single_byte",
    "C68_big5",
    "C68_shift_jis",
    "C68_one_end",
    "C68_single_byte_regenerate",
    "C68_big5_regenerate",
    "C68_shift_jis_regenerate",
    "C68_single_byte_not_ascii",
    "C68_repository"
   ],
   "note": ""
  },
  {
   "property": "C69",
   "status": "proved",
   "theorems": [
    "C69_doc_examples_pass",
    "C69_doc_examples_listed",
    "C69_unit_tests_pass",
    "C69_unit_test_names",
    "C69_property_tests_hold",
    "C69_property_test_names",
    "C69_strategies",
    "C69_file_tests",
    "C69_file_tests_pass",
    "C69_file_tests_accept_truncated_files"
   ],
   "note": ""
  },
  {
   "property": "C70",
   "status": "proved",
   "theorems": [
    "C70_rust_bounds",
    "C70_rust_one_end",
    "C70_source_encode",
    "C70_source_decode",
    "C70_wrapper_encode",
    "C70_wrapper_decode",
    "C70_unit_tests",
    "C70_property_tests",
    "C70_python_bounds",
    "C70_scripts"
   ],
   "note": ""
  },
  {
   "property": "C71",
   "status": "proved",
   "theorems": [
    "C71_encode_iterations",
    "C71_decode_iterations",
    "C71_utf8_decode_iterations",
    "C71_encode_iterations_needed",
    "C71_decode_iterations_needed",
    "C71_utf8_decode_iterations_needed",
    "C71_utf8_decode_iterations_unbounded"
   ],
   "note": ""
  },
  {
   "property": "C72",
   "status": "proved",
   "theorems": [
    "C72_interface",
    "C72_functions",
    "C72_unsafe",
    "C72_core_only"
   ],
   "note": ""
  },
  {
   "property": "C73",
   "status": "proved",
   "theorems": [
    "C73_encode_fills",
    "C73_decode_fills",
    "C73_encode_waste_tight",
    "C73_decode_waste_tight",
    "C73_encode_calls",
    "C73_encode_calls_needed",
    "C73_decode_calls",
    "C73_decode_calls_needed"
   ],
   "note": ""
  },
  {
   "property": "C74",
   "status": "proved",
   "theorems": [
    "C74_single_byte",
    "C74_shift_jis",
    "C74_big5",
    "C74_encode_single_byte",
    "C74_encode_shift_jis",
    "C74_encode_big5",
    "C74_big5_2003",
    "C74_big5_2003_other"
   ],
   "note": ""
  },
  {
   "property": "C75",
   "status": "proved",
   "theorems": [
    "C75_decode_concat",
    "C75_decode_cut",
    "C75_encode_concat",
    "C75_encode_cut",
    "C75_search",
    "C75_search_low",
    "C75_search_encoded",
    "C75_shift_jis_exception",
    "C75_big5_exception",
    "C75_alignment_needed",
    "C75_cut_condition_needed"
   ],
   "note": ""
  },
  {
   "property": "C76",
   "status": "proved",
   "theorems": [
    "C76_resume",
    "C76_split",
    "C76_split_utf8_refuted",
    "C76_before",
    "C76_damage_is_local",
    "C76_conditions_needed",
    "C76_general_conditions_needed"
   ],
   "note": ""
  },
  {
   "property": "C77",
   "status": "proved",
   "theorems": [
    "C77_order",
    "C77_order_utf16",
    "C77_other_encodings"
   ],
   "note": ""
  }
 ]
}