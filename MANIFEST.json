{
 "claims": [
  {
   "property": "C01",
   "status": "proved",
   "theorems": [
    "C01_dtype_strings_round_trip"
   ],
   "note": ""
  },
  {
   "property": "C02",
   "status": "proved",
   "theorems": [
    "C02_dtype_lookup_history_independent"
   ],
   "note": ""
  },
  {
   "property": "C03",
   "status": "proved",
   "theorems": [
    "C03_fixed_width_values_round_trip"
   ],
   "note": ""
  },
  {
   "property": "C04",
   "status": "proved",
   "theorems": [
    "C04_byte_order_on_disk"
   ],
   "note": ""
  },
  {
   "property": "C05",
   "status": "proved",
   "theorems": [
    "C05_files_move_between_hosts"
   ],
   "note": ""
  },
  {
   "property": "C06",
   "status": "proved",
   "theorems": [
    "C06_complex_non_native_parts_swapped"
   ],
   "note": ""
  },
  {
   "property": "C07",
   "status": "proved",
   "theorems": [
    "C07_unicode_arrays_lose_exactly_nuls"
   ],
   "note": ""
  },
  {
   "property": "C08",
   "status": "proved",
   "theorems": [
    "C08_boolean_conversions",
    "C08_boolean_from_bool",
    "C08_bytes_of_files"
   ],
   "note": ""
  },
  {
   "property": "C09",
   "status": "proved",
   "theorems": [
    "C09_headers_well_formed"
   ],
   "note": ""
  },
  {
   "property": "C10",
   "status": "proved",
   "theorems": [
    "C10_header_round_trip",
    "C10_written_codes"
   ],
   "note": ""
  },
  {
   "property": "C11",
   "status": "proved",
   "theorems": [
    "C11_eight_dimensions_fit",
    "C11_longer_headers_are_corrupt"
   ],
   "note": ""
  },
  {
   "property": "C12",
   "status": "proved",
   "theorems": [
    "C12_parsing_terminates"
   ],
   "note": ""
  },
  {
   "property": "C13",
   "status": "proved",
   "theorems": [
    "C13_key_order_and_blanks_ignored"
   ],
   "note": ""
  },
  {
   "property": "C14",
   "status": "proved",
   "theorems": [
    "C14_independent_of_earlier_parses",
    "C14_buffer_never_overflows"
   ],
   "note": ""
  },
  {
   "property": "C15",
   "status": "proved",
   "theorems": [
    "C15_archive_reads",
    "C15_archive_writes",
    "C15_compressor",
    "C15_paths",
    "C15_assertions_only_reject"
   ],
   "note": ""
  },
  {
   "property": "C16",
   "status": "proved",
   "theorems": [
    "C16_missing_keys_leave_fields_undefined",
    "C16_any_text"
   ],
   "note": ""
  },
  {
   "property": "C17",
   "status": "proved",
   "theorems": [
    "C17_shape_text"
   ],
   "note": ""
  },
  {
   "property": "C18",
   "status": "proved",
   "theorems": [
    "C18_addressing"
   ],
   "note": ""
  },
  {
   "property": "C19",
   "status": "proved",
   "theorems": [
    "C19_addressing_bijective"
   ],
   "note": ""
  },
  {
   "property": "C20",
   "status": "proved",
   "theorems": [
    "C20_signed_indices_follow_numpy"
   ],
   "note": ""
  },
  {
   "property": "C21",
   "status": "proved",
   "theorems": [
    "C21_unsigned_overload_does_not_check_rank"
   ],
   "note": ""
  },
  {
   "property": "C22",
   "status": "proved",
   "theorems": [
    "C22_get_and_set"
   ],
   "note": ""
  },
  {
   "property": "C23",
   "status": "proved",
   "theorems": [
    "C23_element_count",
    "C23_wrapped_count_is_out_of_bounds_refuted"
   ],
   "note": ""
  },
  {
   "property": "C24",
   "status": "proved",
   "theorems": [
    "C24_copy_and_move"
   ],
   "note": ""
  },
  {
   "property": "C25",
   "status": "proved",
   "theorems": [
    "C25_fortran_is_the_transpose"
   ],
   "note": ""
  },
  {
   "property": "C26",
   "status": "proved",
   "theorems": [
    "C26_save_load_round_trip",
    "C26_file_contents",
    "C26_complex_across_hosts_refuted"
   ],
   "note": ""
  },
  {
   "property": "C27",
   "status": "proved",
   "theorems": [
    "C27_concatenated_tensors"
   ],
   "note": ""
  },
  {
   "property": "C28",
   "status": "proved",
   "theorems": [
    "C28_wrong_type_refused",
    "C28_never_accepted",
    "C28_saved_tensors"
   ],
   "note": ""
  },
  {
   "property": "C29",
   "status": "proved",
   "theorems": [
    "C29_peek_agrees_with_load"
   ],
   "note": ""
  },
  {
   "property": "C30",
   "status": "proved",
   "theorems": [
    "C30_truncation_not_detected"
   ],
   "note": ""
  },
  {
   "property": "C31",
   "status": "proved",
   "theorems": [
    "C31_saved_files_injective"
   ],
   "note": ""
  },
  {
   "property": "C32",
   "status": "proved",
   "theorems": [
    "C32_crc_is_standard",
    "C32_long_strings",
    "C32_four_gigabytes"
   ],
   "note": ""
  },
  {
   "property": "C33",
   "status": "proved",
   "theorems": [
    "C33_crc_catches_bursts",
    "C33_crc_catches_four_bytes",
    "C33_damaged_entry_is_reported"
   ],
   "note": ""
  },
  {
   "property": "C34",
   "status": "proved",
   "theorems": [
    "C34_integers_round_trip"
   ],
   "note": ""
  },
  {
   "property": "C35",
   "status": "proved",
   "theorems": [
    "C35_stored_round_trip"
   ],
   "note": ""
  },
  {
   "property": "C36",
   "status": "proved",
   "theorems": [
    "C36_keys_are_sorted_names",
    "C36_order_is_antisymmetric"
   ],
   "note": ""
  },
  {
   "property": "C37",
   "status": "proved",
   "theorems": [
    "C37_lookup"
   ],
   "note": ""
  },
  {
   "property": "C38",
   "status": "proved",
   "theorems": [
    "C38_names_normalised"
   ],
   "note": ""
  },
  {
   "property": "C39",
   "status": "proved",
   "theorems": [
    "C39_closing"
   ],
   "note": ""
  },
  {
   "property": "C40",
   "status": "proved",
   "theorems": [
    "C40_append_only",
    "C40_writes_append",
    "C40_unopened_file_writer_loses_everything"
   ],
   "note": ""
  },
  {
   "property": "C41",
   "status": "proved",
   "theorems": [
    "C41_returned_data_was_checked",
    "C41_returned_tensor_was_checked"
   ],
   "note": ""
  },
  {
   "property": "C42",
   "status": "proved",
   "theorems": [
    "C42_archives_are_zip_files"
   ],
   "note": ""
  },
  {
   "property": "C43",
   "status": "proved",
   "theorems": [
    "C43_extra_length_four_short"
   ],
   "note": ""
  },
  {
   "property": "C44",
   "status": "proved",
   "theorems": [
    "C44_count_wraps",
    "C44_full_archive_opens_empty"
   ],
   "note": ""
  },
  {
   "property": "C45",
   "status": "proved",
   "theorems": [
    "C45_end_signature_needed",
    "C45_interrupted_archive",
    "C45_crafted_tensor_opens"
   ],
   "note": ""
  },
  {
   "property": "C46",
   "status": "proved",
   "theorems": [
    "C46_short_read_poisons"
   ],
   "note": ""
  },
  {
   "property": "C47",
   "status": "proved",
   "theorems": [
    "C47_peek_and_read_decode_the_saved_bytes"
   ],
   "note": ""
  },
  {
   "property": "C48",
   "status": "proved",
   "theorems": [
    "C48_one_at_a_time",
    "C48_interference",
    "C48_tokens_kept_together",
    "C48_any_number_of_threads",
    "C48_a_lock_suffices",
    "C48_every_call_can_return",
    "C48_loads_race"
   ],
   "note": ""
  },
  {
   "property": "C49",
   "status": "proved",
   "theorems": [
    "C49_round_trip",
    "C49_bound_is_sharp",
    "C49_compressed_archives",
    "C49_some_arrays_are_lost"
   ],
   "note": ""
  },
  {
   "property": "C50",
   "status": "proved",
   "theorems": [
    "C50_second_buffer_lost",
    "C50_more_than_one_buffer",
    "C50_more_than_one_buffer_case",
    "C50_standard_deflate_streams",
    "C50_any_compressor",
    "C50_thirty_two_kilobyte_boundary"
   ],
   "note": ""
  },
  {
   "property": "C51",
   "status": "proved",
   "theorems": [
    "C51_files_of_other_writers",
    "C51_other_versions"
   ],
   "note": ""
  },
  {
   "property": "C52",
   "status": "proved",
   "theorems": [
    "C52_output_is_standard_deflate"
   ],
   "note": ""
  },
  {
   "property": "C53",
   "status": "proved",
   "theorems": [
    "C53_large_members_refused",
    "C53_large_member_case",
    "C53_archives_of_other_programs_open",
    "C53_members_are_found_and_decoded",
    "C53_arrays_of_other_programs",
    "C53_other_extra_fields_refused",
    "C53_local_headers_must_agree"
   ],
   "note": ""
  },
  {
   "property": "C54",
   "status": "proved",
   "theorems": [
    "C54_interrupted_saves"
   ],
   "note": ""
  },
  {
   "property": "C55",
   "status": "proved",
   "theorems": [
    "C55_arbitrary_bytes"
   ],
   "note": ""
  },
  {
   "property": "C56",
   "status": "proved",
   "theorems": [
    "C56_tensors_are_values",
    "C56_swap",
    "C56_moved_from_tensors"
   ],
   "note": ""
  },
  {
   "property": "C57",
   "status": "proved",
   "theorems": [
    "C57_files_hold_the_last_save",
    "C57_faults",
    "C57_missing_files"
   ],
   "note": ""
  },
  {
   "property": "C58",
   "status": "proved",
   "theorems": [
    "C58_truncated_compressed_data",
    "C58_truncated_member"
   ],
   "note": ""
  },
  {
   "property": "C59",
   "status": "proved",
   "theorems": [
    "C59_any_bytes_as_archive",
    "C59_any_entry",
    "C59_any_member",
    "C59_short_files"
   ],
   "note": ""
  },
  {
   "property": "C60",
   "status": "proved",
   "theorems": [
    "C60_every_string_is_classified",
    "C60_exactly_one_class",
    "C60_faulty_streams_are_refused",
    "C60_any_compressed_bytes",
    "C60_accepted_bytes_are_right",
    "C60_faulty_member",
    "C60_senseless_streams"
   ],
   "note": ""
  },
  {
   "property": "C61",
   "status": "proved",
   "theorems": [
    "C61_same_files",
    "C61_builtin_class",
    "C61_any_loader",
    "C61_arrays_as_matrices",
    "C61_matrix_round_trip",
    "C61_matrices_from_archives",
    "C61_example_does_not_check_the_type",
    "C61_example_limits",
    "C61_same_refusals"
   ],
   "note": ""
  },
  {
   "property": "C62",
   "status": "proved",
   "theorems": [
    "C62_checked_is_memory_safe",
    "C62_memory_safety",
    "C62_sensible_streams_are_safe",
    "C62_out_of_bounds",
    "C62_uninitialised_memory",
    "C62_endless_output",
    "C62_hostile_member"
   ],
   "note": ""
  },
  {
   "property": "C63",
   "status": "proved",
   "theorems": [
    "C63_file_follows_the_string_writer",
    "C63_incomplete_archives_do_not_open",
    "C63_archives_are_read_back",
    "C63_unopenable_paths_are_silent",
    "C63_file_readers"
   ],
   "note": ""
  },
  {
   "property": "C64",
   "status": "proved",
   "theorems": [
    "C64_raw_arrays",
    "C64_strings_and_other_types"
   ],
   "note": ""
  },
  {
   "property": "C65",
   "status": "proved",
   "theorems": [
    "C65_header_text",
    "C65_one_meaning",
    "C65_files",
    "C65_loads"
   ],
   "note": ""
  },
  {
   "property": "C66",
   "status": "proved",
   "theorems": [
    "C66_debug_text",
    "C66_debug_or_release",
    "C66_files",
    "C66_loads"
   ],
   "note": ""
  },
  {
   "property": "C67",
   "status": "proved",
   "theorems": [
    "C67_little_endian_hosts",
    "C67_big_endian_compressor",
    "C67_big_endian_decompressor",
    "C67_big_endian_out_of_bounds",
    "C67_big_endian_archives"
   ],
   "note": ""
  },
  {
   "property": "C68",
   "status": "proved",
   "theorems": [
    "C68_no_assertion_fails"
   ],
   "note": ""
  },
  {
   "property": "C69",
   "status": "proved",
   "theorems": [
    "C69_compressed_size"
   ],
   "note": ""
  },
  {
   "property": "C70",
   "status": "proved",
   "theorems": [
    "C70_reading_order",
    "C70_writing_through",
    "C70_outside_is_undefined",
    "C70_in_place_loop",
    "C70_file_order"
   ],
   "note": ""
  },
  {
   "property": "C71",
   "status": "proved",
   "theorems": [
    "C71_names",
    "C71_member",
    "C71_sessions",
    "C71_tensors",
    "C71_contained_archives",
    "C71_no_undefined_answers"
   ],
   "note": ""
  },
  {
   "property": "C72",
   "status": "proved",
   "theorems": [
    "C72_compression_ignores_memory",
    "C72_same_archive"
   ],
   "note": ""
  },
  {
   "property": "C73",
   "status": "proved",
   "theorems": [
    "C73_programs"
   ],
   "note": ""
  },
  {
   "property": "C74",
   "status": "proved",
   "theorems": [
    "C74_which_calls_parse",
    "C74_a_lock_around_header_parsing",
    "C74_whole_tokens",
    "C74_every_program_can_finish"
   ],
   "note": ""
  },
  {
   "property": "C75",
   "status": "proved",
   "theorems": [
    "C75_sessions"
   ],
   "note": ""
  },
  {
   "property": "C76",
   "status": "proved",
   "theorems": [
    "C76_killed_inside_a_call",
    "C76_replace_by_rename"
   ],
   "note": ""
  },
  {
   "property": "C77",
   "status": "proved",
   "theorems": [
    "C77_classic",
    "C77_what_is_written",
    "C77_round_trip_within",
    "C77_comma_locale_reads_no_shape",
    "C77_separators_become_dimensions",
    "C77_another_shape",
    "C77_other_separators_cut",
    "C77_four_dimensions_fit",
    "C77_archive_members",
    "C77_archive_round_trip",
    "C77_archive_comma"
   ],
   "note": ""
  },
  {
   "property": "C78",
   "status": "proved",
   "theorems": [
    "C78_same_or_failure",
    "C78_default_mask",
    "C78_bad_from_the_start",
    "C78_no_partial_tensor",
    "C78_saved_files",
    "C78_until_failure",
    "C78_arbitrary_bytes"
   ],
   "note": ""
  },
  {
   "property": "C79",
   "status": "proved",
   "theorems": [
    "C79_killed_under_a_lock",
    "C79_killed_without_a_lock"
   ],
   "note": ""
  },
  {
   "property": "C80",
   "status": "proved",
   "theorems": [
    "C80_beginning_arrives",
    "C80_silent",
    "C80_bad_from_the_start",
    "C80_refused_arrays",
    "C80_badbit",
    "C80_failbit_alone",
    "C80_limited_room",
    "C80_as_in_files",
    "C80_several",
    "C80_tested_at_the_end",
    "C80_come_back"
   ],
   "note": ""
  },
  {
   "property": "C81",
   "status": "proved",
   "theorems": [
    "C81_as_delivered",
    "C81_nothing_escapes",
    "C81_all_or_exception",
    "C81_willing_buffers",
    "C81_bad_from_the_start",
    "C81_which_exception",
    "C81_saved_files"
   ],
   "note": ""
  },
  {
   "property": "C82",
   "status": "proved",
   "theorems": [
    "C82_a_lock_around_header_parsing",
    "C82_whole_tokens",
    "C82_every_program_can_finish",
    "C82_killed_under_a_lock",
    "C82_killed_without_a_lock"
   ],
   "note": ""
  }
 ]
}