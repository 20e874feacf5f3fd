{
 "claims": [
  {
   "property": "C01",
   "status": "proved",
   "theorems": [
    "C01_stream_roundtrip",
    "C01_stream_bytes_injective",
    "C01_stream_bytes_are_bytes"
   ],
   "note": ""
  },
  {
   "property": "C02",
   "status": "proved",
   "theorems": [
    "C02_short_or_foreign_refused",
    "C02_newer_version_refused",
    "C02_torn_stream_refused"
   ],
   "note": ""
  },
  {
   "property": "C03",
   "status": "proved",
   "theorems": [
    "C03_wire_formats_roundtrip",
    "C03_vector_roundtrip",
    "C03_varint_length",
    "C03_float_length"
   ],
   "note": ""
  },
  {
   "property": "C04",
   "status": "proved",
   "theorems": [
    "C04_frame_counter",
    "C04_counter_exact_up_to_255",
    "C04_overflow_panics_dev",
    "C04_wrap_release"
   ],
   "note": ""
  },
  {
   "property": "C05",
   "status": "proved",
   "theorems": [
    "C05_noop_nearest_integers",
    "C05_noop_integers_exact"
   ],
   "note": ""
  },
  {
   "property": "C06",
   "status": "proved",
   "theorems": [
    "C06_constant_lossless",
    "C06_out_of_range_refuted"
   ],
   "note": ""
  },
  {
   "property": "C07",
   "status": "proved",
   "theorems": [
    "C07_rle_lossless",
    "C07_rle_fractional_exact",
    "C07_out_of_range_refuted"
   ],
   "note": ""
  },
  {
   "property": "C08",
   "status": "proved",
   "theorems": [
    "C08_width_safe",
    "C08_fractional_forces_f64",
    "C08_width_smallest"
   ],
   "note": ""
  },
  {
   "property": "C09",
   "status": "proved",
   "theorems": [
    "C09_statistics_correct",
    "C09_mean_accurate",
    "C09_mean_finite"
   ],
   "note": ""
  },
  {
   "property": "C10",
   "status": "proved",
   "theorems": [
    "C10_chunk_sizes",
    "C10_plan_partitions",
    "C10_one_compressor_per_chunk"
   ],
   "note": ""
  },
  {
   "property": "C11",
   "status": "proved",
   "theorems": [
    "C11_cleaning_keeps_finite",
    "C11_clean_series_unchanged",
    "C11_cleaning_idempotent",
    "C11_specification_unique"
   ],
   "note": ""
  },
  {
   "property": "C12",
   "status": "proved",
   "theorems": [
    "C12_prev_power_of_two",
    "C12_prev_power_of_two_zero",
    "C12_next_size",
    "C12_next_size_terminates",
    "C12_next_size_max_refuted"
   ],
   "note": ""
  },
  {
   "property": "C13",
   "status": "proved",
   "theorems": [
    "C13_library_sample_counts",
    "C13_pipeline_sample_count",
    "C13_too_many_frames_refused"
   ],
   "note": ""
  },
  {
   "property": "C14",
   "status": "proved",
   "theorems": [
    "C14_rle_lossless",
    "C14_noop_nearest"
   ],
   "note": ""
  },
  {
   "property": "C15",
   "status": "proved",
   "theorems": [
    "C15_empty_series",
    "C15_nonempty_series_readable"
   ],
   "note": ""
  },
  {
   "property": "C16",
   "status": "proved",
   "theorems": [
    "C16_output_in_range",
    "C16_any_frame_in_range",
    "C16_polynomial_output_finite"
   ],
   "note": ""
  },
  {
   "property": "C17",
   "status": "proved",
   "theorems": [
    "C17_grid_agreement",
    "C17_grid_samples_returned",
    "C17_hinted_step_overflow_refuted"
   ],
   "note": ""
  },
  {
   "property": "C18",
   "status": "proved",
   "theorems": [
    "C18_error_control",
    "C18_bound_enforced_without_zeros",
    "C18_nan_escapes_bound_refuted",
    "C18_huge_bound_stores_nothing_refuted"
   ],
   "note": ""
  },
  {
   "property": "C19",
   "status": "proved",
   "theorems": [
    "C19_stored_everything_exact",
    "C19_integer_series_exact",
    "C19_fractional_refuted"
   ],
   "note": ""
  },
  {
   "property": "C20",
   "status": "proved",
   "theorems": [
    "C20_automatic_selection",
    "C20_unsampled_choice",
    "C20_constant_series_exact",
    "C20_reported_error_wrong_refuted"
   ],
   "note": ""
  },
  {
   "property": "C21",
   "status": "proved",
   "theorems": [
    "C21_chosen_on_prefix",
    "C21_bound_not_enforced_refuted"
   ],
   "note": ""
  },
  {
   "property": "C22",
   "status": "proved",
   "theorems": [
    "C22_panics_iff_lengths_differ",
    "C22_never_negative",
    "C22_self_error_zero",
    "C22_mape_nan_iff"
   ],
   "note": ""
  },
  {
   "property": "C23",
   "status": "proved",
   "theorems": [
    "C23_stored_frequencies",
    "C23_requested_count",
    "C23_largest_kept",
    "C23_bin_number_wraps_refuted"
   ],
   "note": ""
  },
  {
   "property": "C24",
   "status": "proved",
   "theorems": [
    "C24_padding_undone"
   ],
   "note": ""
  },
  {
   "property": "C25",
   "status": "proved",
   "theorems": [
    "C25_any_frame_in_range",
    "C25_output_in_range",
    "C25_produced_range_ordered"
   ],
   "note": ""
  },
  {
   "property": "C26",
   "status": "proved",
   "theorems": [
    "C26_mirrored_spectrum",
    "C26_out_of_range_panics"
   ],
   "note": ""
  },
  {
   "property": "C27",
   "status": "proved",
   "theorems": [
    "C27_update",
    "C27_history",
    "C27_release_never_panics",
    "C27_dev_overflow_refuted"
   ],
   "note": ""
  },
  {
   "property": "C28",
   "status": "proved",
   "theorems": [
    "C28_counts",
    "C28_repeated_points_refuted",
    "C28_same_second_refuted"
   ],
   "note": ""
  },
  {
   "property": "C29",
   "status": "proved",
   "theorems": [
    "C29_segments",
    "C29_segments_unique",
    "C29_regular_beginning",
    "C29_accuracy",
    "C29_regular_series_exact"
   ],
   "note": ""
  },
  {
   "property": "C30",
   "status": "proved",
   "theorems": [
    "C30_get_sample",
    "C30_listed_found",
    "C30_points"
   ],
   "note": ""
  },
  {
   "property": "C31",
   "status": "proved",
   "theorems": [
    "C31_get_time",
    "C31_against_list",
    "C31_later_segment_refuted"
   ],
   "note": ""
  },
  {
   "property": "C32",
   "status": "proved",
   "theorems": [
    "C32_previous_in_gap",
    "C32_ends",
    "C32_previous_in_segment",
    "C32_previous_in_last_segment",
    "C32_this_first",
    "C32_this_outside",
    "C32_next_is_last_segment",
    "C32_next_in_last_gap",
    "C32_next_skips_segments_refuted"
   ],
   "note": ""
  },
  {
   "property": "C33",
   "status": "proved",
   "theorems": [
    "C33_not_empty_overlaps",
    "C33_single_segment_exact",
    "C33_several_segments_exact",
    "C33_occupied_reported_empty_refuted"
   ],
   "note": ""
  },
  {
   "property": "C34",
   "status": "proved",
   "theorems": [
    "C34_accepted_texts",
    "C34_round_trip",
    "C34_day_index_round_trip",
    "C34_torn_file_accepted",
    "C34_torn_index_refuted",
    "C34_torn_number_refuted",
    "C34_empty_file_accepted",
    "C34_torn_file_never_complete",
    "C34_location"
   ],
   "note": ""
  },
  {
   "property": "C35",
   "status": "proved",
   "theorems": [
    "C35_no_overflow_within_a_day"
   ],
   "note": ""
  },
  {
   "property": "C36",
   "status": "proved",
   "theorems": [
    "C36_accumulates",
    "C36_count_wraps",
    "C36_add_overflow_dev"
   ],
   "note": ""
  },
  {
   "property": "C37",
   "status": "proved",
   "theorems": [
    "C37_round_trip",
    "C37_round_trip_object",
    "C37_too_large_panics",
    "C37_refuses",
    "C37_short_content_panics"
   ],
   "note": ""
  },
  {
   "property": "C38",
   "status": "proved",
   "theorems": [
    "C38_complete",
    "C38_error_panics",
    "C38_short_write_accepted",
    "C38_short_write_loses_refuted",
    "C38_short_header_refused",
    "C38_short_write_reads_empty_refuted"
   ],
   "note": ""
  },
  {
   "property": "C39",
   "status": "proved",
   "theorems": [
    "C39_built",
    "C39_release_never_panics",
    "C39_increasing",
    "C39_decreasing_refused",
    "C39_read_back",
    "C39_regular_exact",
    "C39_wrong_time_refuted",
    "C39_same_second_panics"
   ],
   "note": ""
  },
  {
   "property": "C40",
   "status": "proved",
   "theorems": [
    "C40_calendar",
    "C40_second_of_day",
    "C40_range"
   ],
   "note": ""
  },
  {
   "property": "C41",
   "status": "proved",
   "theorems": [
    "C41_all_succeed",
    "C41_first_failure_aborts",
    "C41_foreign_file_aborts_compression",
    "C41_own_output_aborts",
    "C41_uncompress_foreign"
   ],
   "note": ""
  },
  {
   "property": "C42",
   "status": "proved",
   "theorems": [
    "C42_with_headers",
    "C42_no_headers",
    "C42_ragged_row_panics",
    "C42_missing_file",
    "C42_byte_order_mark"
   ],
   "note": ""
  },
  {
   "property": "C43",
   "status": "proved",
   "theorems": [
    "C43_join_bits",
    "C43_channels",
    "C43_split_join",
    "C43_more_channels_panic",
    "C43_converter",
    "C43_unreadable_becomes_empty"
   ],
   "note": ""
  },
  {
   "property": "C44",
   "status": "proved",
   "theorems": [
    "C44_fft_reported_error",
    "C44_overflow_reported_as_exact_refuted",
    "C44_infinite_chunk",
    "C44_library_calls"
   ],
   "note": ""
  },
  {
   "property": "C45",
   "status": "proved",
   "theorems": [
    "C45_unbounded_fft_size_mismatch"
   ],
   "note": ""
  },
  {
   "property": "C46",
   "status": "proved",
   "theorems": [
    "C46_size_bounded",
    "C46_size_bounded_in_samples"
   ],
   "note": ""
  },
  {
   "property": "C47",
   "status": "proved",
   "theorems": [
    "C47_auto_error_zero_lossless",
    "C47_auto_error_zero_integers",
    "C47_large_integers_refuted",
    "C47_fractions_refuted",
    "C47_polynomial_error_zero_refuted"
   ],
   "note": ""
  },
  {
   "property": "C48",
   "status": "proved",
   "theorems": [
    "C48_write_read",
    "C48_layout",
    "C48_missing_column",
    "C48_byte_order_mark"
   ],
   "note": ""
  },
  {
   "property": "C49",
   "status": "proved",
   "theorems": [
    "C49_round_trip",
    "C49_rle_exact",
    "C49_auto_error_zero_exact",
    "C49_no_finite_sample_refuted",
    "C49_csv_round_trip"
   ],
   "note": ""
  },
  {
   "property": "C50",
   "status": "proved",
   "theorems": [
    "C50_round_trip",
    "C50_error_zero_exact",
    "C50_no_index_panics",
    "C50_no_finite_value_refuted",
    "C50_displaced_refuted",
    "C50_output_names",
    "C50_disorder_refused"
   ],
   "note": ""
  },
  {
   "property": "C51",
   "status": "proved",
   "theorems": [
    "C51_one_output",
    "C51_same_stem_overwrites"
   ],
   "note": ""
  },
  {
   "property": "C52",
   "status": "proved",
   "theorems": [
    "C52_repeated_seconds_overflow_refuted",
    "C52_release_accepts"
   ],
   "note": ""
  },
  {
   "property": "C53",
   "status": "proved",
   "theorems": [
    "C53_metrics_accurate",
    "C53_finite_default_metric",
    "C53_symmetric_error_accurate",
    "C53_symmetric_error_at_most",
    "C53_normalised_error_accurate"
   ],
   "note": ""
  },
  {
   "property": "C54",
   "status": "proved",
   "theorems": [
    "C54_polynomial_error_end_to_end"
   ],
   "note": ""
  },
  {
   "property": "C55",
   "status": "proved",
   "theorems": [
    "C55_auto_error_end_to_end"
   ],
   "note": ""
  },
  {
   "property": "C56",
   "status": "proved",
   "theorems": [
    "C56_frames_written",
    "C56_stream_written",
    "C56_payload_written"
   ],
   "note": ""
  },
  {
   "property": "C57",
   "status": "proved",
   "theorems": [
    "C57_stream_readable",
    "C57_accepted_can_be_rewritten",
    "C57_spelling_kept_refuted",
    "C57_malformed_payload_refused",
    "C57_noop_constant_read"
   ],
   "note": ""
  },
  {
   "property": "C58",
   "status": "proved",
   "theorems": [
    "C58_announced_length",
    "C58_noop_announced_length_refuted",
    "C58_stream_length",
    "C58_frames_independent"
   ],
   "note": ""
  },
  {
   "property": "C59",
   "status": "proved",
   "theorems": [
    "C59_fft_error_end_to_end"
   ],
   "note": ""
  },
  {
   "property": "C60",
   "status": "proved",
   "theorems": [
    "C60_idw_samples_returned",
    "C60_idw_error_end_to_end"
   ],
   "note": ""
  },
  {
   "property": "C61",
   "status": "proved",
   "theorems": [
    "C61_round_is_nearest",
    "C61_round_idempotent",
    "C61_round_monotone",
    "C61_round_many_decimals",
    "C61_limit_in_range",
    "C61_limit_nan",
    "C61_to_integer"
   ],
   "note": ""
  },
  {
   "property": "C62",
   "status": "proved",
   "theorems": [
    "C62_decoded_values",
    "C62_everything_kept",
    "C62_short_chunks"
   ],
   "note": ""
  },
  {
   "property": "C63",
   "status": "proved",
   "theorems": [
    "C63_total_order",
    "C63_nan_order_refuted",
    "C63_zeros_last",
    "C63_largest_stored",
    "C63_largest_requested"
   ],
   "note": ""
  },
  {
   "property": "C64",
   "status": "proved",
   "theorems": [
    "C64_operations",
    "C64_stopped",
    "C64_repeat",
    "C64_torn_refused",
    "C64_torn_wbro_loses_refuted"
   ],
   "note": ""
  },
  {
   "property": "C65",
   "status": "proved",
   "theorems": [
    "C65_operations",
    "C65_stopped",
    "C65_repeat",
    "C65_index_ahead_refuted"
   ],
   "note": ""
  },
  {
   "property": "C66",
   "status": "proved",
   "theorems": [
    "C66_rle_cycles",
    "C66_noop_cycles",
    "C66_constant_cycles",
    "C66_polynomial_drift_refuted"
   ],
   "note": ""
  },
  {
   "property": "C67",
   "status": "proved",
   "theorems": [
    "C67_frame_count_unchecked",
    "C67_frame_size_unchecked",
    "C67_trailing_ignored",
    "C67_damaged_value_accepted",
    "C67_small_file_any_count"
   ],
   "note": ""
  },
  {
   "property": "C68",
   "status": "proved",
   "theorems": [
    "C68_fft_payload",
    "C68_fft_file",
    "C68_lossless_ignore_options",
    "C68_stored_points",
    "C68_payload",
    "C68_file",
    "C68_integers_refuted",
    "C68_auto_refuted"
   ],
   "note": ""
  },
  {
   "property": "C69",
   "status": "proved",
   "theorems": [
    "C69_appending",
    "C69_editing",
    "C69_frames_independent",
    "C69_appending_unaligned_refuted"
   ],
   "note": ""
  },
  {
   "property": "C70",
   "status": "proved",
   "theorems": [
    "C70_dropped_energy",
    "C70_kept_frequencies",
    "C70_loss",
    "C70_near_best"
   ],
   "note": ""
  },
  {
   "property": "C71",
   "status": "proved",
   "theorems": [
    "C71_same_table",
    "C71_plain_tables",
    "C71_rows_read",
    "C71_values_read"
   ],
   "note": ""
  },
  {
   "property": "C72",
   "status": "proved",
   "theorems": [
    "C72_compress",
    "C72_decompress",
    "C72_compress_same",
    "C72_decompress_same",
    "C72_empty_frame_differs",
    "C72_too_many_frames",
    "C72_index",
    "C72_atsc_file",
    "C72_atsc_directory",
    "C72_csv_compressor",
    "C72_wav2wbro"
   ],
   "note": ""
  },
  {
   "property": "C73",
   "status": "proved",
   "theorems": [
    "C73_directory",
    "C73_ends_normally",
    "C73_order",
    "C73_round_trip",
    "C73_operations",
    "C73_stopped",
    "C73_repeat",
    "C73_torn_output_blocks_refuted"
   ],
   "note": ""
  },
  {
   "property": "C74",
   "status": "proved",
   "theorems": [
    "C74_round_trip",
    "C74_error_zero_values",
    "C74_time_error",
    "C74_regular_beginning",
    "C74_out_of_order_refuted"
   ],
   "note": ""
  },
  {
   "property": "C75",
   "status": "proved",
   "theorems": [
    "C75_segments",
    "C75_segments_unique",
    "C75_crowded_second_loses",
    "C75_read_back",
    "C75_round_trip",
    "C75_four_in_a_second_panics"
   ],
   "note": ""
  },
  {
   "property": "C76",
   "status": "proved",
   "theorems": [
    "C76_curve_determined",
    "C76_samples_on_the_curve",
    "C76_straight_lines"
   ],
   "note": ""
  },
  {
   "property": "C77",
   "status": "proved",
   "theorems": [
    "C77_frame",
    "C77_reported_error",
    "C77_file",
    "C77_auto_size"
   ],
   "note": ""
  },
  {
   "property": "C78",
   "status": "proved",
   "theorems": [
    "C78_payload",
    "C78_file"
   ],
   "note": ""
  },
  {
   "property": "C79",
   "status": "proved",
   "theorems": [
    "C79_same_compressed_file",
    "C79_wavbro_recompressed",
    "C79_same_uncompressed_file",
    "C79_default_fields_refuted",
    "C79_written_values_compressed"
   ],
   "note": ""
  },
  {
   "property": "C80",
   "status": "proved",
   "theorems": [
    "C80_atsc",
    "C80_csvc",
    "C80_limits",
    "C80_order",
    "C80_defaults"
   ],
   "note": ""
  },
  {
   "property": "C81",
   "status": "proved",
   "theorems": [
    "C81_refused",
    "C81_compress_status",
    "C81_compress_succeeds",
    "C81_uncompress_status",
    "C81_other_inputs",
    "C81_csvc_status",
    "C81_csvc_compress_status",
    "C81_csvc_uncompress_status",
    "C81_session",
    "C81_default_session",
    "C81_csvc_session"
   ],
   "note": ""
  },
  {
   "property": "C82",
   "status": "proved",
   "theorems": [
    "C82_numbers_read",
    "C82_nearest",
    "C82_printed_reads_back",
    "C82_shortest",
    "C82_integers",
    "C82_csv_round_trip",
    "C82_decimal_column",
    "C82_integer_file"
   ],
   "note": ""
  },
  {
   "property": "C83",
   "status": "proved",
   "theorems": [
    "C83_next_to_input",
    "C83_directory_writes",
    "C83_directory_session",
    "C83_csvc_outputs",
    "C83_csvc_index"
   ],
   "note": ""
  },
  {
   "property": "C84",
   "status": "proved",
   "theorems": [
    "C84_cells",
    "C84_any_language",
    "C84_not_utf8_refused",
    "C84_header_not_utf8",
    "C84_row_not_utf8",
    "C84_csvc_row_not_utf8",
    "C84_csvc_header_not_utf8",
    "C84_columns_by_name_refuted"
   ],
   "note": ""
  },
  {
   "property": "C85",
   "status": "proved",
   "theorems": [
    "C85_numbers",
    "C85_unambiguous",
    "C85_effects",
    "C85_one_file",
    "C85_uncompress",
    "C85_directory"
   ],
   "note": ""
  },
  {
   "property": "C86",
   "status": "proved",
   "theorems": [
    "C86_no_refusal",
    "C86_status_zero",
    "C86_only_outputs",
    "C86_failed_compress",
    "C86_short_write_refuted",
    "C86_directory_skipped_refuted",
    "C86_csvc_status_zero",
    "C86_csvc_uncompress",
    "C86_csv_lost_refuted",
    "C86_csvc_only_outputs",
    "C86_csvc_no_refusal"
   ],
   "note": ""
  },
  {
   "property": "C87",
   "status": "proved",
   "theorems": [
    "C87_independent",
    "C87_no_waiting",
    "C87_meanwhile",
    "C87_same_output",
    "C87_same_wbro_refuted"
   ],
   "note": ""
  },
  {
   "property": "C88",
   "status": "proved",
   "theorems": [
    "C88_words",
    "C88_status",
    "C88_converts",
    "C88_mismatch_message_refuted",
    "C88_no_refusal",
    "C88_refused",
    "C88_unopened_refuted",
    "C88_session"
   ],
   "note": ""
  },
  {
   "property": "C89",
   "status": "proved",
   "theorems": [
    "C89_history",
    "C89_only_calls_count",
    "C89_overflowed_chunk_kept"
   ],
   "note": ""
  },
  {
   "property": "C90",
   "status": "proved",
   "theorems": [
    "C90_accepted",
    "C90_failures",
    "C90_ascii",
    "C90_csv_compressor",
    "C90_round_trip"
   ],
   "note": ""
  },
  {
   "property": "C91",
   "status": "proved",
   "theorems": [
    "C91_independent",
    "C91_no_waiting",
    "C91_divided"
   ],
   "note": ""
  },
  {
   "property": "C92",
   "status": "proved",
   "theorems": [
    "C92_same_call"
   ],
   "note": ""
  }
 ]
}