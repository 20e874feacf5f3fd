# What Print Assumptions lists for each theorem

Generated by tools/assumptions.py.

## Closed under the global context (no axioms)

C01_stream_bytes_are_bytes, C01_stream_bytes_injective, C01_stream_roundtrip, C02_newer_version_refused, C02_short_or_foreign_refused, C02_torn_stream_refused, C03_float_length, C03_varint_length, C03_vector_roundtrip, C10_chunk_sizes, C10_one_compressor_per_chunk, C10_plan_partitions, C11_clean_series_unchanged, C11_cleaning_idempotent, C11_cleaning_keeps_finite, C11_specification_unique, C12_next_size, C12_next_size_max_refuted, C12_next_size_terminates, C12_prev_power_of_two, C12_prev_power_of_two_zero, C27_dev_overflow_refuted, C27_history, C27_release_never_panics, C27_update, C28_counts, C28_repeated_points_refuted, C28_same_second_refuted, C29_accuracy, C29_regular_beginning, C29_regular_series_exact, C29_segments, C29_segments_unique, C30_get_sample, C30_listed_found, C30_points, C31_against_list, C31_get_time, C31_later_segment_refuted, C32_ends, C32_next_in_last_gap, C32_next_is_last_segment, C32_next_skips_segments_refuted, C32_previous_in_gap, C32_previous_in_last_segment, C32_previous_in_segment, C32_this_first, C32_this_outside, C33_not_empty_overlaps, C33_occupied_reported_empty_refuted, C33_several_segments_exact, C33_single_segment_exact, C34_accepted_texts, C34_day_index_round_trip, C34_empty_file_accepted, C34_location, C34_round_trip, C34_torn_file_accepted, C34_torn_file_never_complete, C34_torn_index_refuted, C34_torn_number_refuted, C35_no_overflow_within_a_day, C36_accumulates, C36_add_overflow_dev, C36_count_wraps, C37_too_large_panics, C38_complete, C38_error_panics, C38_short_write_accepted, C39_built, C39_decreasing_refused, C39_increasing, C39_read_back, C39_regular_exact, C39_release_never_panics, C39_same_second_panics, C40_calendar, C40_range, C40_second_of_day, C42_byte_order_mark, C42_missing_file, C42_no_headers, C42_ragged_row_panics, C42_with_headers, C48_byte_order_mark, C48_layout, C48_missing_column, C48_write_read, C52_release_accepts, C52_repeated_seconds_overflow_refuted, C56_stream_written, C57_accepted_can_be_rewritten, C57_spelling_kept_refuted, C57_stream_readable, C63_nan_order_refuted, C71_plain_tables, C71_rows_read, C71_same_table, C71_values_read, C72_index, C74_out_of_order_refuted, C74_regular_beginning, C74_time_error, C75_crowded_second_loses, C75_read_back, C75_segments, C75_segments_unique, C80_atsc, C80_csvc, C80_defaults, C80_limits, C80_order, C84_cells, C84_csvc_header_not_utf8, C88_words, C90_accepted, C90_ascii, C90_failures, C90_round_trip

## `ClassicalDedekindReals.sig_forall_dec`, `ClassicalDedekindReals.sig_not_dec`, `Classical_Prop.classic`, `FunctionalExtensionality.functional_extensionality_dep`

C03_wire_formats_roundtrip, C04_counter_exact_up_to_255, C04_frame_counter, C04_overflow_panics_dev, C04_wrap_release, C05_noop_integers_exact, C05_noop_nearest_integers, C06_constant_lossless, C06_out_of_range_refuted, C07_out_of_range_refuted, C07_rle_fractional_exact, C07_rle_lossless, C08_fractional_forces_f64, C08_width_safe, C08_width_smallest, C09_mean_accurate, C09_mean_finite, C09_statistics_correct, C13_library_sample_counts, C13_pipeline_sample_count, C13_too_many_frames_refused, C14_noop_nearest, C14_rle_lossless, C15_empty_series, C15_nonempty_series_readable, C16_any_frame_in_range, C16_output_in_range, C16_polynomial_output_finite, C17_grid_agreement, C17_grid_samples_returned, C17_hinted_step_overflow_refuted, C18_bound_enforced_without_zeros, C18_error_control, C18_huge_bound_stores_nothing_refuted, C18_nan_escapes_bound_refuted, C19_fractional_refuted, C19_integer_series_exact, C19_stored_everything_exact, C20_automatic_selection, C20_constant_series_exact, C20_reported_error_wrong_refuted, C20_unsampled_choice, C21_bound_not_enforced_refuted, C21_chosen_on_prefix, C22_mape_nan_iff, C22_never_negative, C22_panics_iff_lengths_differ, C22_self_error_zero, C23_bin_number_wraps_refuted, C23_largest_kept, C23_requested_count, C23_stored_frequencies, C24_padding_undone, C25_any_frame_in_range, C25_output_in_range, C25_produced_range_ordered, C26_mirrored_spectrum, C26_out_of_range_panics, C37_refuses, C37_round_trip, C37_round_trip_object, C37_short_content_panics, C38_short_header_refused, C38_short_write_loses_refuted, C38_short_write_reads_empty_refuted, C39_wrong_time_refuted, C41_all_succeed, C41_first_failure_aborts, C41_foreign_file_aborts_compression, C41_own_output_aborts, C41_uncompress_foreign, C43_channels, C43_converter, C43_join_bits, C43_more_channels_panic, C43_split_join, C43_unreadable_becomes_empty, C44_fft_reported_error, C44_infinite_chunk, C44_library_calls, C44_overflow_reported_as_exact_refuted, C45_unbounded_fft_size_mismatch, C46_size_bounded, C46_size_bounded_in_samples, C47_auto_error_zero_integers, C47_auto_error_zero_lossless, C47_fractions_refuted, C47_large_integers_refuted, C47_polynomial_error_zero_refuted, C49_auto_error_zero_exact, C49_csv_round_trip, C49_no_finite_sample_refuted, C49_rle_exact, C49_round_trip, C50_disorder_refused, C50_displaced_refuted, C50_error_zero_exact, C50_no_finite_value_refuted, C50_no_index_panics, C50_output_names, C50_round_trip, C51_one_output, C51_same_stem_overwrites, C53_finite_default_metric, C53_metrics_accurate, C53_normalised_error_accurate, C53_symmetric_error_accurate, C54_polynomial_error_end_to_end, C55_auto_error_end_to_end, C56_frames_written, C56_payload_written, C57_malformed_payload_refused, C57_noop_constant_read, C58_announced_length, C58_frames_independent, C58_noop_announced_length_refuted, C58_stream_length, C59_fft_error_end_to_end, C60_idw_error_end_to_end, C60_idw_samples_returned, C61_limit_in_range, C61_limit_nan, C61_round_idempotent, C61_round_is_nearest, C61_round_many_decimals, C61_round_monotone, C61_to_integer, C62_decoded_values, C62_everything_kept, C62_short_chunks, C63_largest_requested, C63_largest_stored, C63_total_order, C63_zeros_last, C64_operations, C64_repeat, C64_stopped, C64_torn_refused, C64_torn_wbro_loses_refuted, C65_index_ahead_refuted, C65_operations, C65_repeat, C65_stopped, C66_constant_cycles, C66_noop_cycles, C66_polynomial_drift_refuted, C66_rle_cycles, C67_damaged_value_accepted, C67_frame_count_unchecked, C67_frame_size_unchecked, C67_small_file_any_count, C67_trailing_ignored, C68_auto_refuted, C68_fft_file, C68_fft_payload, C68_file, C68_integers_refuted, C68_lossless_ignore_options, C68_payload, C68_stored_points, C69_appending, C69_appending_unaligned_refuted, C69_editing, C69_frames_independent, C70_kept_frequencies, C70_loss, C70_near_best, C72_atsc_directory, C72_atsc_file, C72_compress, C72_compress_same, C72_csv_compressor, C72_decompress, C72_decompress_same, C72_empty_frame_differs, C72_too_many_frames, C72_wav2wbro, C73_directory, C73_ends_normally, C73_operations, C73_order, C73_repeat, C73_round_trip, C73_stopped, C73_torn_output_blocks_refuted, C74_error_zero_values, C74_round_trip, C75_four_in_a_second_panics, C75_round_trip, C76_samples_on_the_curve, C76_straight_lines, C77_auto_size, C77_file, C77_frame, C77_reported_error, C78_file, C78_payload, C79_default_fields_refuted, C79_same_compressed_file, C79_same_uncompressed_file, C79_wavbro_recompressed, C79_written_values_compressed, C81_compress_status, C81_compress_succeeds, C81_csvc_compress_status, C81_csvc_session, C81_csvc_status, C81_csvc_uncompress_status, C81_default_session, C81_other_inputs, C81_refused, C81_session, C81_uncompress_status, C82_csv_round_trip, C82_decimal_column, C82_integer_file, C82_integers, C82_nearest, C82_numbers_read, C82_printed_reads_back, C82_shortest, C83_csvc_index, C83_csvc_outputs, C83_directory_session, C83_directory_writes, C83_next_to_input, C84_any_language, C84_columns_by_name_refuted, C84_csvc_row_not_utf8, C84_header_not_utf8, C84_not_utf8_refused, C84_row_not_utf8, C85_directory, C85_effects, C85_numbers, C85_one_file, C85_unambiguous, C85_uncompress, C86_csv_lost_refuted, C86_csvc_no_refusal, C86_csvc_only_outputs, C86_csvc_status_zero, C86_csvc_uncompress, C86_directory_skipped_refuted, C86_failed_compress, C86_no_refusal, C86_only_outputs, C86_short_write_refuted, C86_status_zero, C87_independent, C87_meanwhile, C87_no_waiting, C87_same_output, C87_same_wbro_refuted, C88_converts, C88_mismatch_message_refuted, C88_no_refusal, C88_refused, C88_session, C88_status, C88_unopened_refuted, C89_history, C89_only_calls_count, C89_overflowed_chunk_kept, C90_csv_compressor, C91_divided, C91_independent, C91_no_waiting, C92_same_call

## `ClassicalDedekindReals.sig_forall_dec`, `ClassicalDedekindReals.sig_not_dec`, `FunctionalExtensionality.functional_extensionality_dep`

C70_dropped_energy

## `ClassicalDedekindReals.sig_forall_dec`, `FunctionalExtensionality.functional_extensionality_dep`

C53_symmetric_error_at_most, C76_curve_determined
