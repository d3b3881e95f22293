{"claims": [
 {"property": "C01", "status": "proved", "theorems": ["C01_accept_iff_good_frame", "C01_only_low_16_bits_matter"], "note": ""},
 {"property": "C02", "status": "proved", "theorems": ["C02_any_single_bit_error_rejected", "C02_detected_error_patterns"], "note": ""},
 {"property": "C03", "status": "proved", "theorems": ["C03_one_check_pair_per_position", "C03_stuck_bus_rejected"], "note": ""},
 {"property": "C04", "status": "proved", "theorems": ["C04_small_buffer_untouched", "C04_layout_and_frame", "C04_only_conversions_can_fail"], "note": ""},
 {"property": "C06", "status": "proved", "theorems": ["C06_wire_roundtrip_ieee", "C06_decode_is_exact_ieee", "C06_message_roundtrip_ieee", "C06_value_roundtrip_exact_reals", "C06_value_roundtrip_mod_360_when_wrapping"], "note": ""},
 {"property": "C05", "status": "proved", "theorems": ["C05_accepts_exactly"], "note": ""},
 {"property": "C63", "status": "partial", "theorems": ["C63_header_read_refuted", "C05_accepts_exactly"], "note": "False of the code: bytes 0..1 are read before any length check (C63_header_read_refuted, every input). Proved: no out-of-bounds read when at least 2 bytes are available (C05_accepts_exactly)."},
 {"property": "C07", "status": "proved", "theorems": ["C07_defined_exactly", "C07_nexstar_reply_defined_exactly"], "note": ""},
 {"property": "C64", "status": "partial", "theorems": ["C64_every_position_encodable_refuted", "C64_southern_sync_then_position_refuted", "C07_defined_exactly"], "note": "False of the code: negative declinations convert a negative double to uint32_t, undefined in ISO C++; C07_defined_exactly gives the exact set of encodable angles."},
 {"property": "C34", "status": "proved", "theorems": ["C34_points_kept", "C34_points_distinct", "C34_points_sorted", "C34_refuses_exactly_duplicates"], "note": ""},
 {"property": "C65", "status": "partial", "theorems": ["C65_64th_point_loses_all_refuted", "C34_points_kept"], "note": "False of the code: in every history the 64th point resets the count to 0 (refuted for all histories); up to 63 points are kept."},
 {"property": "C35", "status": "proved", "theorems": ["C35_reference_is_given_mod_360"], "note": "Exact arithmetic."},
 {"property": "C66", "status": "partial", "theorems": ["C66_within_180_of_first_partial", "C66_within_180_of_first_refuted"], "note": "False of the code (witness in IEEE double). Proved: it holds at the moment of insertion relative to the then first point if the given azimuth is within 540 degrees of it."},
 {"property": "C36", "status": "proved", "theorems": ["C36_triangles_well_formed"], "note": ""},
 {"property": "C37", "status": "proved", "theorems": ["C37_only_triangle_arrays_can_overflow"], "note": ""},
 {"property": "C67", "status": "partial", "theorems": ["C67_general_position_fits_partial", "C67_up_to_three_points_safe_partial", "C67_triangle_arrays_overflow_refuted"], "note": "False of the code: near-degenerate point sets make it need more than 4n triangles in IEEE double (two witnesses). Proved for up to three points, for every arithmetic; in exact arithmetic for every point set in general position."},
 {"property": "C39", "status": "proved", "theorems": ["C39_result_is_function_of_points", "C39_uninitialised_read_exactly", "C39_uninitialised_read_exact_arithmetic"], "note": "The value is irrelevant but the indeterminate variables are read (formally UB) exactly when the supertriangle is flat, e.g. for the first sync."},
 {"property": "C40", "status": "proved", "theorems": ["C40_one_point_is_translation", "C40_two_points_is_similarity", "C40_small_histories_run"], "note": "Exact arithmetic."},
 {"property": "C41", "status": "proved", "theorems": ["C41_triangle_is_mapped_affinely"], "note": "Exact arithmetic."},
 {"property": "C42", "status": "proved", "theorems": ["C42_regular_matrices_inverted"], "note": "Exact arithmetic."},
 {"property": "C68", "status": "partial", "theorems": ["C68_reported_singular_exactly", "C68_triangle_reported_exactly_partial", "C68_collinear_points_not_reported_refuted"], "note": "False of the code: a collinear triangle is reported as singular only if all azimuths and the first altitude are 0; exact characterisation proved."},
 {"property": "C43", "status": "proved", "theorems": ["C43_type_matches_correction", "C43_cleared_means_no_correction", "C43_cleared_orientation_unchanged"], "note": ""},
 {"property": "C44", "status": "proved", "theorems": ["C44_points_of_triangle_accepted", "C44_accepted_exactly"], "note": "Exact arithmetic; see C69 for float areas."},
 {"property": "C69", "status": "partial", "theorems": ["C69_inner_point_rejected_refuted"], "note": "False of the code: witness in a 60x50 degree triangle."},
 {"property": "C45", "status": "proved", "theorems": ["C45_nearest_triangle"], "note": "Exact arithmetic."},
 {"property": "C46", "status": "partial", "theorems": ["C46_one_or_two_points_exact", "C46_corner_exact_partial", "C46_reference_at_stored_point_refuted"], "note": "False as stated: the containment tolerance can select another triangle (witness). Proved in exact arithmetic for one and two points, and with triangles when no foreign triangle passes the containment test at the point."},
 {"property": "C47", "status": "proved", "theorems": ["C47_triangulate_idempotent", "C47_repeated_sync_changes_nothing"], "note": ""},
 {"property": "C62", "status": "partial", "theorems": ["C62_inversion_reads_behind_matrix_refuted", "C62_two_point_sync_refuted", "C62_value_read_is_irrelevant_partial"], "note": "False of the code: the row-scaling loop runs to j<=dim and reads m[9]. In exact arithmetic the value read does not influence the inverse of a regular matrix."},
 {"property": "C17", "status": "proved", "theorems": ["C17_accepts_exactly", "C17_single_byte_error_rejected", "C17_only_verified_sentences_used"], "note": ""},
 {"property": "C18", "status": "proved", "theorems": ["C18_missing_marker_rejected_on_device", "C18_never_reads_outside_on_device"], "note": ""},
 {"property": "C70", "status": "partial", "theorems": ["C70_reversed_accepted_exactly", "C70_reversed_rejected_refuted"], "note": "False of the code: accepted exactly when the number behind '*' is 0 or missing (exact characterisation for all strings, with a witness)."},
 {"property": "C71", "status": "partial", "theorems": ["C71_missing_star_read_out_of_bounds_refuted", "C71_missing_dollar_accepted_refuted"], "note": "False of the code: npos truncated to uint32_t never equals npos on 64-bit; every string without '*' makes strtol read far outside."},
 {"property": "C19", "status": "proved", "theorems": ["C19_rejected_sentence_changes_nothing", "C19_buffer_without_sentence_changes_nothing"], "note": ""},
 {"property": "C20", "status": "proved", "theorems": ["C20_rmc_values_exact", "C20_rmc_values_ieee"], "note": "Exact arithmetic, and float arithmetic with error bound."},
 {"property": "C21", "status": "proved", "theorems": ["C21_gga_values_exact", "C21_gga_values_ieee", "C21_gsv_values"], "note": "Exact arithmetic, and float arithmetic with error bound."},
 {"property": "C22", "status": "proved", "theorems": ["C22_no_fix_keeps_position", "C22_rmc_without_A_keeps_position", "C22_gga_quality_0_keeps_position"], "note": ""},
 {"property": "C72", "status": "partial", "theorems": ["C72_hemisphere_flags_kept_refuted"], "note": "False of the code: every RMC sentence without fix and with empty hemisphere fields sets south and west while keeping the coordinates."},
 {"property": "C23", "status": "partial", "theorems": ["C23_enough_separators_safe_partial", "C23_short_sentence_read_outside_refuted"], "note": "False of the code for short sentences with a correct checksum (e.g. $GPRMC*4B). Proved safe for all strings with enough commas behind the header (9 for RMC/GGA, 3 for GSV)."},
 {"property": "C24", "status": "proved", "theorems": ["C24_time_of_day_ieee", "C24_time_of_day_exact"], "note": ""},
 {"property": "C73", "status": "partial", "theorems": ["C73_milliseconds_refuted", "C24_time_of_day_ieee"], "note": "False of the code: 23:59:59.999 is decoded as 23:59:60 (float has 1/64 s resolution there)."},
 {"property": "C25", "status": "proved", "theorems": ["C25_terminates", "C25_complete_lines_parsed"], "note": ""},
 {"property": "C74", "status": "partial", "theorems": ["C74_line_without_dollar_refuted", "C25_complete_lines_parsed"], "note": "False of the code: a first line without '$' makes the next sentence parse twice, and an unfinished sentence parse."},
 {"property": "C26", "status": "proved", "theorems": ["C26_julian_day_ieee", "C26_julian_day_exact", "C26_next_day_is_one_more"], "note": ""},
 {"property": "C76", "status": "partial", "theorems": ["C76_year_6771_skips_a_day_refuted", "C26_next_day_is_one_more"], "note": "False of the code: the float product 365.25f*(year+4716) is rounded up from March 6771 on, so a day is skipped. Proved for years 1..6767 (C26)."},
 {"property": "C27", "status": "proved", "theorems": ["C27_sidereal_time_exact", "C27_longitude_shifts_degree_for_degree", "C27_sidereal_time_ieee"], "note": "Exact arithmetic, and on the device within 10^-7 degree for 2000..2099 (where the normalisation can miss [0,360) by at most 10^-8, see C75)."},
 {"property": "C28", "status": "proved", "theorems": ["C28_f_mod_normalises", "C28_f_mod_fixes_normalised"], "note": "Exact arithmetic; see C75 for IEEE double."},
 {"property": "C75", "status": "partial", "theorems": ["C75_f_mod_nearly_normalises_partial", "C75_f_mod_below_n_refuted"], "note": "False of the code: f_mod(-1e-20,360)=360. Proved: for n=360 and |a|<=1.4e7 the result is within 1e-8 of [0,360] and within 1e-12 of a modulo 360."},
 {"property": "C08", "status": "proved", "theorems": ["C08_documented_reply", "C08_unknown_request", "C08_terminated", "C08_position_reply"], "note": "Every arithmetic, platform and state; location and time replies: C15, C16."},
 {"property": "C09", "status": "proved", "theorems": ["C09_only_sync_changes_telescope", "C09_sync_effect"], "note": ""},
 {"property": "C10", "status": "proved", "theorems": ["C10_reads_only_the_request", "C10_reads_only_the_request_device", "C10_writes_only_the_reply", "C10_no_buffer_error"], "note": ""},
 {"property": "C78", "status": "partial", "theorems": ["C78_unknown_request_overread_refuted", "C10_reads_only_the_request_device"], "note": "False of the code: the device build prints request[0..7] of every unknown request; refuted for every unknown request shorter than 8 bytes."},
 {"property": "C11", "status": "proved", "theorems": ["C11_goto_is_not_nexstar"], "note": ""},
 {"property": "C12", "status": "proved", "theorems": ["C12_sync_fields", "C12_angles_exact"], "note": "Every arithmetic; angles exact in real and binary64 arithmetic."},
 {"property": "C13", "status": "proved", "theorems": ["C13_synced_is_reported", "C13_sync_then_position_same_words"], "note": "Exact arithmetic; declination words of southern stars: C77."},
 {"property": "C77", "status": "partial", "theorems": ["C77_southern_position_partial", "C77_southern_position_refuted"], "note": "False of ISO C++: the negative declination is converted to uint32_t out of range (undefined). Proved: the reply carries exactly what the platform's out-of-range conversion yields; with wrap-around that is the synced word, with saturation it is 0."},
 {"property": "C15", "status": "proved", "theorems": ["C15_location_exact", "C15_location_float"], "note": ""},
 {"property": "C79", "status": "partial", "theorems": ["C79_southern_location_refuted", "C79_western_location_refuted"], "note": "False of the code: undefined conversion by ISO C++, and on every platform the degrees byte is at least one minute too large."},
 {"property": "C16", "status": "proved", "theorems": ["C16_time"], "note": ""},
 {"property": "C29", "status": "proved", "theorems": ["C29_normalised", "C29_hours"], "note": "Exact arithmetic, mathematical sin/cos/atan2."},
 {"property": "C30", "status": "proved", "theorems": ["C30_horizontal_is_where_the_star_stands", "C30_equatorial_is_the_star_seen_there", "C30_roundtrip_horizontal", "C30_roundtrip_equatorial"], "note": "Exact arithmetic."},
 {"property": "C31", "status": "proved", "theorems": ["C31_separation_preserved"], "note": "Exact arithmetic."},
 {"property": "C32", "status": "proved", "theorems": ["C32_sky_turns", "C32_shift_together", "C32_turns_do_not_matter"], "note": "Exact arithmetic."},
 {"property": "C33", "status": "proved", "theorems": ["C33_zenith", "C33_pole"], "note": "Exact arithmetic."},
 {"property": "C49", "status": "proved", "theorems": ["C49_on_exactly_in_windows", "C49_ready_leaves_pin", "C49_flash_seen", "C49_number_of_flashes", "C49_millisecond_steps"], "note": ""},
 {"property": "C80", "status": "partial", "theorems": ["C80_single_flash_never_seen_refuted", "C80_single_flash_seen_partial"], "note": "False of the code: the flash lasts 10 ms; a schedule with 31.25 ms gaps never sees it.  Proved: it is seen when updates are at most 10 ms apart."},
 {"property": "C81", "status": "partial", "theorems": ["C81_pattern_broken_at_wrap_refuted", "C81_pattern_until_wrap_partial"], "note": "False of the code after the counter wraps; proved up to the wrap."},
 {"property": "C53", "status": "proved", "theorems": ["C53_float_mean_of_last_50", "C53_mean_of_last_50", "C53_rounding"], "note": ""},
 {"property": "C82", "status": "partial", "theorems": ["C82_start_up_mean_refuted", "C82_start_up_mean_partial"], "note": "False of the code: the missing samples count as zero and the sum is divided by 50."},
 {"property": "C59", "status": "proved", "theorems": ["C59_read_after_write", "C59_read_result", "C59_other_files_untouched", "C59_crash_never_mixes"], "note": ""},
 {"property": "C83", "status": "partial", "theorems": ["C83_failed_write_loses_old_data_refuted", "C83_crash_loses_old_data_refuted", "C83_unopened_write_keeps_data_partial"], "note": "False of the code: opening for writing truncates the file first."},
 {"property": "C14", "status": "proved", "theorems": ["C14_aligned_after_first_sync", "C14_only_syncs_are_acknowledged", "C14_reachable_states_sized"], "note": ""},
 {"property": "C48", "status": "proved", "theorems": ["C48_not_early", "C48_first_not_early", "C48_due_task_runs_soon"], "note": ""},
 {"property": "C50", "status": "proved", "theorems": ["C50_led_mode"], "note": ""},
 {"property": "C51", "status": "proved", "theorems": ["C51_available_iff", "C51_polls_exist"], "note": ""},
 {"property": "C52", "status": "proved", "theorems": ["C52_rejected_frames_ignored", "C52_heading_is_filtered", "C52_heading_range_exact", "C52_converges_exact", "C52_heading_range_ieee", "C52_converges_ieee"], "note": ""},
 {"property": "C54", "status": "proved", "theorems": ["C54_reset_exactly", "C54_confirmation_is_harmless", "C54_pass"], "note": ""},
 {"property": "C55", "status": "proved", "theorems": ["C55_client_kept", "C55_next_client_accepted", "C55_others_turned_away", "C55_served_is_last_accepted"], "note": ""},
 {"property": "C56", "status": "proved", "theorems": ["C56_packet_alone_decides"], "note": ""},
 {"property": "C58", "status": "proved", "theorems": ["C58_replies_go_to_the_requester"], "note": ""},
 {"property": "C84", "status": "partial", "theorems": ["C84_binary_sync_not_reported_refuted", "C84_reset_not_reported_refuted"], "note": "False of the code: binary syncs do not set the flag and a reset does not clear it; what the flag does follow is C14."},
 {"property": "C85", "status": "partial", "theorems": ["C85_slow_passes_starve_refuted"], "note": "False of the code: if each pass takes more than 20 ms only the 20 ms task ever runs; the true part is C48_due_task_runs_soon."},
 {"property": "C86", "status": "partial", "theorems": ["C86_garbage_never_times_out_refuted", "C86_noise_keeps_gnss_available"], "note": "False of the code: any received byte resets the time-out."},
 {"property": "C87", "status": "partial", "theorems": ["C87_heading_swings_at_north_refuted", "C87_heading_swings_at_north_ieee_refuted"], "note": "False of the code: the filter averages angles linearly."},
 {"property": "C88", "status": "partial", "theorems": ["C88_reading_divisor_refuted", "C88_reading_error_partial"], "note": "False of the code: it divides by 16385; the error stays below 0.022 degrees."},
 {"property": "C89", "status": "partial", "theorems": ["C89_read_error_repeats_request_refuted"], "note": "False of the code: the -1 of a failed read counts as a request and the old bytes are parsed again."},
 {"property": "C90", "status": "partial", "theorems": ["C90_short_request_uses_stale_bytes_refuted"], "note": "False of the code; the true part is C56."},
 {"property": "C95", "status": "partial", "theorems": ["C95_no_positions_after_nexstar_refuted"], "note": "False of the code: NexStar mode is never left, so after one answered NexStar request no position message is ever sent again."},
 {"property": "C96", "status": "proved", "theorems": ["C96_position_messages"], "note": ""},
 {"property": "C99", "status": "partial", "theorems": ["C99_byte_order_unspecified_refuted", "C99_swapped_frames_pass_the_check"], "note": "False of the code: the check bits do not detect the swap."},
 {"property": "C57", "status": "proved", "theorems": ["C57_in_bounds_exactly", "C57_published_points"], "note": ""},
 {"property": "C91", "status": "partial", "theorems": ["C91_many_points_overflow_refuted", "C57_in_bounds_exactly"], "note": "False of the code: 22 points (about 17 with usual coordinates) overflow txBuffer; exactly when is C57_in_bounds_exactly."},
 {"property": "C92", "status": "partial", "theorems": ["C92_published_points_not_json_refuted", "C92_empty_list_is_json_partial"], "note": "False of the code: there is a comma behind the last point."},
 {"property": "C93", "status": "partial", "theorems": ["C93_broker_gets_stale_text_refuted"], "note": "False of the code: no NUL is written behind the ']'."},
 {"property": "C94", "status": "partial", "theorems": ["C94_reply_swapped_refuted", "C94_only_without_overlap_partial"], "note": "False of the code: txBuffer is shared without a lock.  Only the two schedules without overlap are right for every request."},
 {"property": "C60", "status": "proved", "theorems": ["C60_goto_answered_exact", "C60_goto_answered_ieee", "C60_calibrate_returns_reference"], "note": ""},
 {"property": "C61", "status": "partial", "theorems": ["C61_declinations_dropped_refuted"], "note": "False of the code: strip() removes the last byte of a message whose declination word has a white-space top byte."},
 {"property": "C97", "status": "proved", "theorems": ["C97_decoded_exactly", "C97_longer_input_raises", "C97_values_exact", "C97_any_message"], "note": ""},
 {"property": "C98", "status": "proved", "theorems": ["C98_pack_exactly", "C98_every_sky_position"], "note": ""},
 {"property": "C100", "status": "partial", "theorems": ["C100_every_computed_position_sent_refuted"], "note": "False of the code: right ascensions of 24 h and more are not reduced."},
 {"property": "C101", "status": "proved", "theorems": ["C101_node_reply_exactly", "C101_same_as_firmware"], "note": ""},
 {"property": "C102", "status": "proved", "theorems": ["C102_same_position", "C102_decoded_exactly"], "note": ""},
 {"property": "C38", "status": "proved", "theorems": ["C38_delaunay", "C38_object_delaunay"], "note": "Exact arithmetic (NumR)."},
 {"property": "C103", "status": "proved", "theorems": ["C103_covered_unless_frame_triangle"], "note": ""},
 {"property": "C104", "status": "partial", "theorems": ["C104_hull_is_covered_refuted"], "note": "False of the code: the frame is too close for flat point sets; three points in general position get no triangle."},
 {"property": "C105", "status": "proved", "theorems": ["C105_alignment_follows_commands"], "note": ""},
 {"property": "C106", "status": "proved", "theorems": ["C106_points_are_the_synchronised_ones", "C106_points_sorted_and_bounded", "C106_correction_always_defined", "C106_triangles_well_formed"], "note": ""},
 {"property": "C107", "status": "proved", "theorems": ["C107_careful_histories_are_memory_safe"], "note": "The read of one element beyond the matrix (C62) and of two uninitialised doubles (C39) are taken to deliver some value. Without the four conditions accesses out of bounds happen: C10, C67, C91 and the short sentences."},
 {"property": "C108", "status": "partial", "theorems": ["C108_stale_triangles_after_overflow_refuted"], "note": "False of the code: the 64th point empties the list but leaves the triangles."},
 {"property": "C109", "status": "proved", "theorems": ["C109_same_sky_position"], "note": ""},
 {"property": "C110", "status": "proved", "theorems": ["C110_inside_small_triangle", "C110_accepted_is_near"], "note": ""},
 {"property": "C111", "status": "proved", "theorems": ["C111_corner_accepted", "C111_corner_is_inside"], "note": ""},
 {"property": "C112", "status": "proved", "theorems": ["C112_network_mode", "C112_lasting_network"], "note": ""},
 {"property": "C113", "status": "proved", "theorems": ["C113_services", "C113_receiver_and_encoder", "C113_shipped"], "note": ""},
 {"property": "C114", "status": "proved", "theorems": ["C114_start_up_ends"], "note": ""},
 {"property": "C115", "status": "proved", "theorems": ["C115_only_usable_services"], "note": ""},
 {"property": "C116", "status": "proved", "theorems": ["C116_no_sensor_no_position"], "note": ""},
 {"property": "C117", "status": "partial", "theorems": ["C117_no_reset_without_server", "C117_reset_as_access_point_refuted"], "note": "False of the code: as access point the MQTT client is not set up and the broker's onPublish only prints; proved that no history as access point contains a reset. The true part (client mode) is C54."},
 {"property": "C118", "status": "proved", "theorems": ["C118_client_reconnects"], "note": ""},
 {"property": "C119", "status": "partial", "theorems": ["C119_access_point_stays_refuted"], "note": "False of the code: no handlers are registered and nothing else calls WiFi.begin; proved for every sequence of Wi-Fi events."},
 {"property": "C120", "status": "proved", "theorems": ["C120_one_star_then_relative"], "note": ""},
 {"property": "C121", "status": "proved", "theorems": ["C121_star_drifts_with_the_sky"], "note": ""},
 {"property": "C122", "status": "proved", "theorems": ["C122_message_carries_the_star"], "note": "Northern stars only, and right ascensions that do not round up to 360 degrees: for the others packPosition converts out of range (C07, C64)."},
 {"property": "C123", "status": "proved", "theorems": ["C123_position_in_time"], "note": ""},
 {"property": "C124", "status": "proved", "theorems": ["C124_complete_sentences_used"], "note": ""},
 {"property": "C125", "status": "partial", "theorems": ["C125_split_sentence_lost_refuted", "C125_whole_sentence_used"], "note": "False of the code: nothing is kept between reads; proved that a sentence cut anywhere into two reads leaves position, time, availability and timeout unchanged, while in one read it is used."},
 {"property": "C126", "status": "proved", "theorems": ["C126_inverse_every_size", "C126_three_by_three_is_an_instance"], "note": ""},
 {"property": "C127", "status": "proved", "theorems": ["C127_reported_exactly", "C127_result_inverts_a_near_matrix"], "note": ""},
 {"property": "C128", "status": "proved", "theorems": ["C128_determinant_of_regular_matrices", "C128_determinant_of_reported_matrices"], "note": ""},
 {"property": "C129", "status": "partial", "theorems": ["C129_singular_matrices_get_a_nonzero_determinant_refuted", "C129_determinant_of_a_near_matrix_partial"], "note": "False of the code: zero pivots are replaced by 1e-20, so every singular matrix without a zero row gets a non-zero determinant; proved that the value is the determinant of a matrix within 1e-20."},
 {"property": "C130", "status": "proved", "theorems": ["C130_decomposition"], "note": ""},
 {"property": "C131", "status": "proved", "theorems": ["C131_transpose", "C131_sum_and_difference", "C131_product", "C131_product_assignment", "C131_norm_and_trace"], "note": ""},
 {"property": "C132", "status": "partial", "theorems": ["C132_self_transpose_result_partial", "C132_self_transpose_refuted"], "note": "False of the code: A = ~A copies from a view of itself; proved what it leaves (the lower triangle mirrored), which is the transpose only of a symmetric matrix."},
 {"property": "C133", "status": "proved", "theorems": ["C133_sparse_matrix_is_a_matrix"], "note": ""},
 {"property": "C134", "status": "partial", "theorems": ["C134_zeroing_loses_another_element_refuted", "C134_overflowing_elements_share_a_value_refuted"], "note": "False of the code: a slot whose value is 0 counts as free, which cuts the probe sequence of other keys; elements that do not fit share one static variable."},
 {"property": "C135", "status": "proved", "theorems": ["C135_nexstar_client_told_the_star"], "note": "Southern stars are sent by converting a negative double to an unsigned integer (C07): the theorem covers them when that conversion wraps."},
 {"property": "C136", "status": "proved", "theorems": ["C136_three_stars", "C136_many_stars"], "note": "Without the condition on the triangles it is false of the code (C46)."},
 {"property": "C137", "status": "proved", "theorems": ["C137_gnss_telemetry", "C137_fits"], "note": ""},
 {"property": "C138", "status": "proved", "theorems": ["C138_telemetry", "C138_sensor_readings", "C138_direction_told"], "note": "The lists of points the built-in broker gets are C93."},
 {"property": "C139", "status": "proved", "theorems": ["C139_alignment_message"], "note": "After the 64th orientation it is false of the code: C108."},
 {"property": "C140", "status": "proved", "theorems": ["C140_published_json"], "note": "The two lists of points are not JSON: C92."},
 {"property": "C141", "status": "proved", "theorems": ["C141_pitch_is_tilt", "C141_pitch_ieee", "C141_zero_points"], "note": "Holds from the 50th sample on; before that it is false of the code (C142). The IEEE theorem assumes atan2 within 2^-20 and PI within 2^-30."},
 {"property": "C142", "status": "partial", "theorems": ["C142_start_up_pitch_partial", "C142_start_up_pitch_refuted"], "note": "False of the code: missing samples count as zero while the zero point is taken off in full; with the tube at rest at 30 degrees the first pitch is above 90 degrees. The partial theorem gives the pitch reported for every number of samples below 50."},
 {"property": "C143", "status": "proved", "theorems": ["C143_every_schedule", "C143_uninterrupted"], "note": "Statement-level interleaving with sequentially consistent memory; a double, one comparison of the duplicate search, the wrapping of the reference and qsort are atomic steps."},
 {"property": "C144", "status": "partial", "theorems": ["C144_without_overlap_partial", "C144_references_swapped_refuted", "C144_star_lost_refuted"], "note": "False of the code: there is no lock; one interleaving stores a star with the reference of the other, another loses a star. The partial theorem: without overlap both are kept."},
 {"property": "C145", "status": "partial", "theorems": ["C145_torn_orientation_refuted"], "note": "False of the code: azimuth and altitude are two stores; a star can be stored with the old azimuth and the new altitude. The true part (no interruption) is C143_uninterrupted."},
 {"property": "C146", "status": "proved", "theorems": ["C146_buffer", "C146_mean", "C146_noise", "C146_radius"], "note": "The program reads the gyroscope but uses none of these results."},
 {"property": "C147", "status": "proved", "theorems": ["C147_stellarium_told_the_star"], "note": "Strict ISO conversions: stars with declination >= 0 and right ascension not within half a unit below 360 (outside it is false: C64)."},
 {"property": "C148", "status": "proved", "theorems": ["C148_equatorial_to_horizontal", "C148_horizontal_to_equatorial", "C148_round_trip", "C148_round_trip_in_degrees"], "note": "good_libm (S_SkyIEEE) states what is assumed of sin, cos, atan2 and PI; a correctly rounding library meets it."},
 {"property": "C149", "status": "proved", "theorems": ["C149_one_star_then_relative", "C149_star_drifts_with_the_sky", "C149_star_in_degrees"], "note": "Orientations up to 1000 degrees; the sidereal time is bounded for all moderate dates (lst_range)."},
 {"property": "C150", "status": "proved", "theorems": ["C150_message_carries_the_star"], "note": "Southern declinations and right ascensions next to 0 are left out: there the conversion to uint32_t is undefined (C64)."},
 {"property": "C151", "status": "proved", "theorems": ["C151_any_fields", "C151_field_values", "C151_angles_exact", "C151_angles_ieee"], "note": "Device (32-bit unsigned long). White space and '+' before the digits are covered by C151_any_fields only."},
 {"property": "C152", "status": "partial", "theorems": ["C152_malformed_accepted_refuted", "C152_first_sync_accepted_refuted", "C152_minus_on_pc_refuted"], "note": "False of the code: a request without any digit is acknowledged with '#' and synchronises the telescope to right ascension 0, declination 0; on a 64-bit host a minus sign gives an angle beyond 10^12 degrees."},
 {"property": "C153", "status": "proved", "theorems": ["C153_gsv_any_count"], "note": ""},
 {"property": "C154", "status": "proved", "theorems": ["C154_two_stars", "C154_stars_reproduced"], "note": "Tube positions up to 360/180 degrees, references up to 721, stars at least one degree apart; the bound grows with the number read behind the matrix (C62)."},
 {"property": "C155", "status": "proved", "theorems": ["C155_triangle", "C155_three_stars_reproduced"], "note": "Triangles of non-zero area; the sequence of calls decides whether there is a triangle (C34-C37). Outside all triangles the one used has the nearest centroid up to 1e-6 (C162_outside_nonvacuous: an orientation on either side)."},
 {"property": "C156", "status": "proved", "theorems": ["C156_star_drifts_with_the_sky"], "note": "Error e at most 1/1100 degree (e.g. two stars 67 degrees apart: 8e-5)."},
 {"property": "C157", "status": "proved", "theorems": ["C157_star_to_direction", "C157_direction_to_star", "C157_round_trip"], "note": "S_Libm states what is assumed of the C library; a correctly rounding one meets it."},
 {"property": "C158", "status": "proved", "theorems": ["C158_one_star_then_relative", "C158_star_drifts_with_the_sky"], "note": "Orientations up to 1000 degrees."},
 {"property": "C159", "status": "proved", "theorems": ["C159_message_carries_the_star"], "note": "Southern declinations and right ascensions next to 0 are left out: there the conversion to uint32_t is undefined (C64)."},
 {"property": "C160", "status": "proved", "theorems": ["C160_reply_carries_the_star"], "note": "Negative declinations only for platforms where the conversion wraps (elsewhere it is undefined); right ascensions not within 1e-5 of 0."},
 {"property": "C161", "status": "proved", "theorems": ["C161_two_stars", "C161_stars_reproduced"], "note": "Finite doubles of up to one turn (proper) per star."},
 {"property": "C162", "status": "proved", "theorems": ["C162_triangle", "C162_three_stars_reproduced"], "note": "The triangle is the one chosen_in names: containing the orientation, or the nearest."},
 {"property": "C163", "status": "proved", "theorems": ["C163_star_drifts_with_the_sky"], "note": "Any number of stars: each must lie in a triangle and only in triangles it is a corner of, as C163_four_stars_nonvacuous shows for four stars (with floats a star on a shared edge could be found in a neighbouring triangle within 1e-6). e at most 1/1100 for the clause in degrees; S_Libm states what is assumed of the C library."},
 {"property": "C164", "status": "proved", "theorems": ["C164_message_carries_the_star"], "note": "Southern declinations and right ascensions next to 0 are left out: there the conversion to uint32_t is undefined (C64). C163_nonvacuous gives the hypotheses."},
 {"property": "C165", "status": "proved", "theorems": ["C165_reply_carries_the_star"], "note": "Negative declinations only for platforms where the conversion wraps."},
 {"property": "C166", "status": "proved", "theorems": ["C166_every_star_is_told"], "note": "Platforms where the out-of-range conversion to uint32_t wraps; elsewhere it is undefined or saturates (C64). The orientation is at most 1000 degrees."},
 {"property": "C167", "status": "proved", "theorems": ["C167_every_star_is_told"], "note": "Platforms where the out-of-range conversion to uint32_t wraps. C163_nonvacuous gives the hypotheses."},
 {"property": "C168", "status": "proved", "theorems": ["C168_named_star_is_answered"], "note": "Platforms where the out-of-range conversion to uint32_t wraps."},
 {"property": "C169", "status": "proved", "theorems": ["C169_one_star_over_tcp", "C169_more_stars_over_tcp"], "note": "Platforms where the out-of-range conversion to uint32_t wraps."},
 {"property": "C170", "status": "proved", "theorems": ["C170_position_is_seen_in_the_direction", "C170_same_as_the_firmware"], "note": "S_Libm states what is assumed of both mathematics libraries; C157_nonvacuous gives one."},
 {"property": "C171", "status": "proved", "theorems": ["C171_position_sent", "C171_position_not_sent", "C171_every_goto_answered"], "note": "Right ascensions within 1e-8 h below 24 h and within 1e-6 h below 0 are left open; extreme words (2^32-1, -2^31, 2^31-1) may be refused."},
 {"property": "C172", "status": "proved", "theorems": ["C172_named_star_is_answered", "C172_second_star_is_answered"], "note": "Platforms where the out-of-range conversion to uint32_t wraps (C64). With three or more stars the triangle arrays may overflow (C67): the general theorem speaks of requests that are handled. C163_nonvacuous and C163_four_stars_nonvacuous give further cases of the hypotheses."},
 {"property": "C173", "status": "proved", "theorems": ["C173_first_star_by_goto", "C173_further_star_by_goto"], "note": "Platforms where the out-of-range conversion to uint32_t wraps (C64). In degrees for northern declinations up to 85; southern ones as a direction. The receive buffer holds bytes, the pass that reads the goto reads no reset message."}
]}
