(** The assumptions of every property theorem (generated by tools/audit.py). *)
From Verif Require PropsAgain.
From Verif Require PropsApi.
From Verif Require PropsAttitude.
From Verif Require PropsBag.
From Verif Require PropsColumns.
From Verif Require PropsCommand.
From Verif Require PropsConc.
From Verif Require PropsCut.
From Verif Require PropsDb.
From Verif Require PropsDefect.
From Verif Require PropsEq.
From Verif Require PropsEvents.
From Verif Require PropsExact.
From Verif Require PropsFile.
From Verif Require PropsFilter.
From Verif Require PropsFirst.
From Verif Require PropsFlag.
From Verif Require PropsHandle.
From Verif Require PropsHang.
From Verif Require PropsInfo.
From Verif Require PropsJson.
From Verif Require PropsKilled.
From Verif Require PropsLaws.
From Verif Require PropsLoaded.
From Verif Require PropsMap.
From Verif Require PropsMigrate.
From Verif Require PropsNumber.
From Verif Require PropsOffsets.
From Verif Require PropsPartial.
From Verif Require PropsPrinted.
From Verif Require PropsRead.
From Verif Require PropsRefused.
From Verif Require PropsRos.
From Verif Require PropsScreen.
From Verif Require PropsScripts.
From Verif Require PropsShown.
From Verif Require PropsStorable.
From Verif Require PropsText.
From Verif Require PropsTools.
From Verif Require PropsWalk.
From Verif Require PropsWritable.
From Verif Require PropsWrite.
From Verif Require PropsWriting.

(** PropsAgain.v *)
Definition PropsAgain_0 := (@PropsAgain.C32_key, @PropsAgain.C32_delete_after, @PropsAgain.C36_grouped, @PropsAgain.C36_many, @PropsAgain.C36_succeeds, @PropsAgain.C36_exact).
Print Assumptions PropsAgain_0.

(** PropsApi.v *)
Definition PropsApi_0 := (@PropsApi.C26_changes, @PropsApi.C26_unique, @PropsApi.C26_lookup, @PropsApi.C26_missing, @PropsApi.C26_loaded, @PropsApi.C27_bytes, @PropsApi.C27_absent, @PropsApi.C27_flag, @PropsApi.C27_string, @PropsApi.C27_not_integer, @PropsApi.C28_decides, @PropsApi.C28_symmetric).
Print Assumptions PropsApi_0.
Definition PropsApi_1 := (@PropsApi.C28_transitive, @PropsApi.C28_same_bytes_partial, @PropsApi.C28_same_bytes_refuted, @PropsApi.C28_parameter_differs, @PropsApi.C28_sample_differs).
Print Assumptions PropsApi_1.

(** PropsAttitude.v *)
Definition PropsAttitude_0 := (@PropsAttitude.C49_rebuild, @PropsAttitude.C49_ranges, @PropsAttitude.C49_unique, @PropsAttitude.C49_sign, @PropsAttitude.C49_lock_refuted, @PropsAttitude.C49_rows, @PropsAttitude.C49_length, @PropsAttitude.C49_others, @PropsAttitude.C49_missing, @PropsAttitude.C49_default).
Print Assumptions PropsAttitude_0.

(** PropsBag.v *)
Definition PropsBag_0 := (@PropsBag.C58_bag, @PropsBag.C58_type, @PropsBag.C58_type_unique, @PropsBag.C58_index, @PropsBag.C58_times, @PropsBag.C58_no_time, @PropsBag.C58_time_refuted, @PropsBag.C58_float_time_refuted, @PropsBag.C58_longer_refuted).
Print Assumptions PropsBag_0.

(** PropsColumns.v *)
Definition PropsColumns_0 := (@PropsColumns.C10_columns, @PropsColumns.C16_law).
Print Assumptions PropsColumns_0.

(** PropsCommand.v *)
Definition PropsCommand_0 := (@PropsCommand.C68_csv_files, @PropsCommand.C68_csv_log, @PropsCommand.C68_gps_files, @PropsCommand.C68_gps_log, @PropsCommand.C68_one_output, @PropsCommand.C68_bad_log, @PropsCommand.C68_csv_status, @PropsCommand.C68_csv_selection, @PropsCommand.C68_dir_refuted, @PropsCommand.C68_gps_status, @PropsCommand.C68_gps_dump, @PropsCommand.C68_params_file).
Print Assumptions PropsCommand_0.
Definition PropsCommand_1 := (@PropsCommand.C68_params_initial, @PropsCommand.C68_no_topics, @PropsCommand.C68_times_refuted, @PropsCommand.C68_format_refuted, @PropsCommand.C68_overwrite_refuted, @PropsCommand.C68_messages).
Print Assumptions PropsCommand_1.

(** PropsConc.v *)
Definition PropsConc_0 := (@PropsConc.C54_statements, @PropsConc.C54_map, @PropsConc.C54_hashes, @PropsConc.C54_race, @PropsConc.C54_race_refuted, @PropsConc.C54_apart, @PropsConc.C54_stored, @PropsConc.C54_atomic, @PropsConc.C54_torn_partial, @PropsConc.C54_torn_order, @PropsConc.C54_torn_law, @PropsConc.C54_torn_possible).
Print Assumptions PropsConc_0.
Definition PropsConc_1 := (@PropsConc.C54_torn_refuted, @PropsConc.C54_type_refuted).
Print Assumptions PropsConc_1.

(** PropsCut.v *)
Definition PropsCut_0 := (@PropsCut.C61_cut_partial, @PropsCut.C61_written, @PropsCut.C61_cut_definitions, @PropsCut.C61_cut_flags, @PropsCut.C61_text_refuted, @PropsCut.C61_first_refuted, @PropsCut.C61_reused_refuted, @PropsCut.C61_first_message).
Print Assumptions PropsCut_0.

(** PropsDb.v *)
Definition PropsDb_0 := (@PropsDb.C29_round_trip, @PropsDb.C29_equal, @PropsDb.C29_corrupt_refuted, @PropsDb.C29_numbers_refuted, @PropsDb.C29_formats_refuted, @PropsDb.C29_large_refuted, @PropsDb.C29_datasets_refuted, @PropsDb.C29_json_refuted, @PropsDb.C30_map, @PropsDb.C30_listed, @PropsDb.C30_others, @PropsDb.C30_good).
Print Assumptions PropsDb_0.
Definition PropsDb_1 := (@PropsDb.C31_delete, @PropsDb.C31_no_orphans, @PropsDb.C31_owned, @PropsDb.C31_failed, @PropsDb.C32_database_partial, @PropsDb.C32_duplicate_refuted, @PropsDb.C32_stale_key_refuted, @PropsDb.C33_hashes, @PropsDb.C33_rows, @PropsDb.C33_duplicate, @PropsDb.C34_hash, @PropsDb.C34_by_name_partial).
Print Assumptions PropsDb_1.
Definition PropsDb_2 := (@PropsDb.C34_by_name_loads, @PropsDb.C34_old_schema, @PropsDb.C34_handle_refuted, @PropsDb.C35_get, @PropsDb.C35_resave_refuted, @PropsDb.C36_load_partial, @PropsDb.C36_lists_refuted).
Print Assumptions PropsDb_2.

(** PropsDefect.v *)
Definition PropsDefect_0 := (@PropsDefect.C21_defects, @PropsDefect.C21_law, @PropsDefect.C21_traceless, @PropsDefect.C21_first_partial).
Print Assumptions PropsDefect_0.

(** PropsEq.v *)
Definition PropsEq_0 := (@PropsEq.C57_mixed, @PropsEq.C57_database, @PropsEq.C57_symmetric, @PropsEq.C57_saved, @PropsEq.C57_opened_twice, @PropsEq.C57_saver, @PropsEq.C57_saver_refuted, @PropsEq.C57_handles_refuted).
Print Assumptions PropsEq_0.

(** PropsEvents.v *)
Definition PropsEvents_0 := (@PropsEvents.C63_own, @PropsEvents.C63_own_damaged, @PropsEvents.C63_own_malformed, @PropsEvents.C63_default, @PropsEvents.C63_no_events, @PropsEvents.C63_downloads, @PropsEvents.C63_history_partial, @PropsEvents.C63_main, @PropsEvents.C63_offline, @PropsEvents.C63_empty_refuted).
Print Assumptions PropsEvents_0.

(** PropsExact.v *)
Definition PropsExact_0 := (@PropsExact.C28_exact, @PropsExact.C45_empty, @PropsExact.C47_csv_exact, @PropsExact.C47_ros2_exact, @PropsExact.C43_law).
Print Assumptions PropsExact_0.

(** PropsFile.v *)
Definition PropsFile_0 := (@PropsFile.C56_same_file, @PropsFile.C56_round_trip, @PropsFile.C56_lazy, @PropsFile.C56_from_file_refuted).
Print Assumptions PropsFile_0.

(** PropsFilter.v *)
Definition PropsFilter_0 := (@PropsFilter.C09_filter, @PropsFilter.C09_framed, @PropsFilter.C09_header_only, @PropsFilter.C09_reuse_refuted, @PropsFilter.C09_untimed_refuted, @PropsFilter.C41_same_samples).
Print Assumptions PropsFilter_0.

(** PropsFirst.v *)
Definition PropsFirst_0 := (@PropsFirst.C07_overlong, @PropsFirst.C04_first_law, @PropsFirst.C04_first_again).
Print Assumptions PropsFirst_0.

(** PropsFlag.v *)
Definition PropsFlag_0 := (@PropsFlag.C76_flag, @PropsFlag.C76_walk, @PropsFlag.C76_once, @PropsFlag.C76_header_only, @PropsFlag.C76_header_first).
Print Assumptions PropsFlag_0.

(** PropsHandle.v *)
Definition PropsHandle_0 := (@PropsHandle.C74_place, @PropsHandle.C74_before, @PropsHandle.C74_closed, @PropsHandle.C74_write, @PropsHandle.C74_write_failed, @PropsHandle.C74_write_closed, @PropsHandle.C74_round_trip, @PropsHandle.C74_behind_refuted, @PropsHandle.C74_appended_refuted, @PropsHandle.C74_back_refuted).
Print Assumptions PropsHandle_0.

(** PropsHang.v *)
Definition PropsHang_0 := (@PropsHang.C03_exact, @PropsHang.C03_decided).
Print Assumptions PropsHang_0.

(** PropsInfo.v *)
Definition PropsInfo_0 := (@PropsInfo.C55_report, @PropsInfo.C55_printed, @PropsInfo.C55_loaded, @PropsInfo.C55_bytes, @PropsInfo.C55_message, @PropsInfo.C55_hex, @PropsInfo.C55_not_found, @PropsInfo.C55_printed_refuted, @PropsInfo.C55_numbers_refuted, @PropsInfo.C55_order_refuted).
Print Assumptions PropsInfo_0.

(** PropsJson.v *)
Definition PropsJson_0 := (@PropsJson.C72_law, @PropsJson.C72_object, @PropsJson.C72_save, @PropsJson.C72_save_refused, @PropsJson.C72_told, @PropsJson.C72_distinct_refuted, @PropsJson.C72_null_refuted).
Print Assumptions PropsJson_0.

(** PropsKilled.v *)
Definition PropsKilled_0 := (@PropsKilled.C39_law, @PropsKilled.C39_stuck, @PropsKilled.C39_resumed).
Print Assumptions PropsKilled_0.

(** PropsLaws.v *)
Definition PropsLaws_0 := (@PropsLaws.C42_characters, @PropsLaws.C42_text_law).
Print Assumptions PropsLaws_0.

(** PropsLoaded.v *)
Definition PropsLoaded_0 := (@PropsLoaded.C66_texts, @PropsLoaded.C66_storable, @PropsLoaded.C66_save, @PropsLoaded.C66_unnamed_refuted).
Print Assumptions PropsLoaded_0.

(** PropsMap.v *)
Definition PropsMap_0 := (@PropsMap.C59_map, @PropsMap.C59_one, @PropsMap.C59_command, @PropsMap.C59_value, @PropsMap.C59_absent, @PropsMap.C59_palette, @PropsMap.C59_distinct, @PropsMap.C59_red, @PropsMap.C59_mode_refuted, @PropsMap.C59_topics_refuted, @PropsMap.C59_list_refuted, @PropsMap.C59_colours_refuted).
Print Assumptions PropsMap_0.
Definition PropsMap_1 := (@PropsMap.C59_camera_refuted).
Print Assumptions PropsMap_1.

(** PropsMigrate.v *)
Definition PropsMigrate_0 := (@PropsMigrate.C37_order, @PropsMigrate.C37_applies, @PropsMigrate.C37_rerun, @PropsMigrate.C37_newer, @PropsMigrate.C37_refused, @PropsMigrate.C37_create, @PropsMigrate.C37_populated_refuted, @PropsMigrate.C38_failure, @PropsMigrate.C38_only, @PropsMigrate.C38_transactions_refuted, @PropsMigrate.C38_retry_refuted, @PropsMigrate.C39_crash_partial).
Print Assumptions PropsMigrate_0.
Definition PropsMigrate_1 := (@PropsMigrate.C39_refuted, @PropsMigrate.C40_noop, @PropsMigrate.C40_missing_refuted, @PropsMigrate.C40_reads, @PropsMigrate.C53_kept, @PropsMigrate.C53_times, @PropsMigrate.C38_unknown_version).
Print Assumptions PropsMigrate_1.

(** PropsNumber.v *)
Definition PropsNumber_0 := (@PropsNumber.C75_text, @PropsNumber.C75_text_total, @PropsNumber.C75_text_valid, @PropsNumber.C75_text_written, @PropsNumber.C75_int, @PropsNumber.C75_int_written, @PropsNumber.C75_float, @PropsNumber.C75_float_written, @PropsNumber.C75_double_written, @PropsNumber.C75_int_as_float, @PropsNumber.C75_info, @PropsNumber.C75_element).
Print Assumptions PropsNumber_0.
Definition PropsNumber_1 := (@PropsNumber.C75_samples).
Print Assumptions PropsNumber_1.

(** PropsOffsets.v *)
Definition PropsOffsets_0 := (@PropsOffsets.C20_beyond, @PropsOffsets.C20_beyond_refused).
Print Assumptions PropsOffsets_0.

(** PropsPartial.v *)
Definition PropsPartial_0 := (@PropsPartial.C64_complete, @PropsPartial.C64_failed, @PropsPartial.C64_limit, @PropsPartial.C64_text, @PropsPartial.C64_no_time, @PropsPartial.C64_header_refuted, @PropsPartial.C64_gps_complete, @PropsPartial.C64_gps).
Print Assumptions PropsPartial_0.

(** PropsPrinted.v *)
Definition PropsPrinted_0 := (@PropsPrinted.C68_info_text, @PropsPrinted.C68_info_report, @PropsPrinted.C68_info_message, @PropsPrinted.C68_messages_text, @PropsPrinted.C68_lines_back, @PropsPrinted.C68_default, @PropsPrinted.C68_default_word, @PropsPrinted.C68_kml_map, @PropsPrinted.C68_kml_fail, @PropsPrinted.C68_map_input).
Print Assumptions PropsPrinted_0.

(** PropsRead.v *)
Definition PropsRead_0 := (@PropsRead.C01_utf8_roundtrip, @PropsRead.C01_ignore_total, @PropsRead.C01_strict_exact, @PropsRead.C01_strict_error, @PropsRead.C02_delivery, @PropsRead.C02_delivery_header_only, @PropsRead.C03_terminates_refuted, @PropsRead.C03_terminates_partial, @PropsRead.C03_terminates_data_partial, @PropsRead.C03_deterministic, @PropsRead.C04_cut_partial, @PropsRead.C04_cut_refuted).
Print Assumptions PropsRead_0.
Definition PropsRead_1 := (@PropsRead.C05_not_a_ulog, @PropsRead.C05_version_start, @PropsRead.C06_sync_search, @PropsRead.C07_recovery_refuted, @PropsRead.C07_corrupt_header_partial, @PropsRead.C07_unknown_message, @PropsRead.C07_sync_inv_start, @PropsRead.C07_sync_inv_step, @PropsRead.C08_load_is_readings, @PropsRead.C08_monotone, @PropsRead.C51_every_load_has_a_trace, @PropsRead.C51_trace_unique).
Print Assumptions PropsRead_1.
Definition PropsRead_2 := (@PropsRead.C51_definitions_in_order, @PropsRead.C51_framed, @PropsRead.C10_samples, @PropsRead.C11_sorted, @PropsRead.C11_get_dataset, @PropsRead.C12_timestamps, @PropsRead.C12_ordered, @PropsRead.C13_info, @PropsRead.C13_types_in_step, @PropsRead.C14_groups, @PropsRead.C14_concat, @PropsRead.C15_law).
Print Assumptions PropsRead_2.
Definition PropsRead_3 := (@PropsRead.C15_defaults_partial, @PropsRead.C15_defaults_refuted, @PropsRead.C16_flattened, @PropsRead.C16_resolves, @PropsRead.C17_accepted_partial, @PropsRead.C17_padding_refuted, @PropsRead.C18_header_only, @PropsRead.C19_refused, @PropsRead.C19_loaded_compatible, @PropsRead.C20_sections, @PropsRead.C20_same_as_one_partial, @PropsRead.C20_same_as_one_refuted).
Print Assumptions PropsRead_3.
Definition PropsRead_4 := (@PropsRead.C21_malformed_refuted, @PropsRead.C21_malformed_partial, @PropsRead.C52_well_formed).
Print Assumptions PropsRead_4.

(** PropsRefused.v *)
Definition PropsRefused_0 := (@PropsRefused.C65_exceptions, @PropsRefused.C65_causes, @PropsRefused.C66_exceptions, @PropsRefused.C31_exceptions).
Print Assumptions PropsRefused_0.

(** PropsRos.v *)
Definition PropsRos_0 := (@PropsRos.C73_version_partial, @PropsRos.C73_version_law, @PropsRos.C73_version_refuted, @PropsRos.C73_written, @PropsRos.C73_agrees, @PropsRos.C73_no_time, @PropsRos.C73_left, @PropsRos.C73_wrong_version, @PropsRos.C73_name, @PropsRos.C73_selection, @PropsRos.C73_no_bag, @PropsRos.C73_unavailable_refuted).
Print Assumptions PropsRos_0.
Definition PropsRos_1 := (@PropsRos.C73_verbose_refuted).
Print Assumptions PropsRos_1.

(** PropsScreen.v *)
Definition PropsScreen_0 := (@PropsScreen.C68_csv_screen, @PropsScreen.C68_gps_screen, @PropsScreen.C68_gps_quiet).
Print Assumptions PropsScreen_0.

(** PropsScripts.v *)
Definition PropsScripts_0 := (@PropsScripts.C69_scripts, @PropsScripts.C69_not_dir, @PropsScripts.C69_refused, @PropsScripts.C69_noop, @PropsScripts.C69_run, @PropsScripts.C69_field, @PropsScripts.C69_names, @PropsScripts.C69_template, @PropsScripts.C69_stray, @PropsScripts.C69_noop_refuted, @PropsScripts.C69_braces_refuted, @PropsScripts.C69_template_refuted).
Print Assumptions PropsScripts_0.

(** PropsShown.v *)
Definition PropsShown_0 := (@PropsShown.C55_agrees, @PropsShown.C55_failed, @PropsShown.C55_message_failed, @PropsShown.C68_info_screen, @PropsShown.C68_info_lines).
Print Assumptions PropsShown_0.

(** PropsStorable.v *)
Definition PropsStorable_0 := (@PropsStorable.C65_exact, @PropsStorable.C65_saved, @PropsStorable.C65_json, @PropsStorable.C65_json_plain, @PropsStorable.C65_refused).
Print Assumptions PropsStorable_0.

(** PropsText.v *)
Definition PropsText_0 := (@PropsText.C60_format, @PropsText.C60_format_refused, @PropsText.C60_format_unique, @PropsText.C60_info, @PropsText.C60_open_refuted, @PropsText.C60_negative_refuted, @PropsText.C60_colon_refuted).
Print Assumptions PropsText_0.

(** PropsTools.v *)
Definition PropsTools_0 := (@PropsTools.C41_window_partial, @PropsTools.C41_limits, @PropsTools.C41_keys, @PropsTools.C41_selects, @PropsTools.C41_missing, @PropsTools.C41_load, @PropsTools.C41_end_refuted, @PropsTools.C41_zero_refuted, @PropsTools.C41_filter, @PropsTools.C42_table, @PropsTools.C42_limits, @PropsTools.C42_columns).
Print Assumptions PropsTools_0.
Definition PropsTools_1 := (@PropsTools.C42_rectangular, @PropsTools.C42_printed_partial, @PropsTools.C42_quote_refuted, @PropsTools.C42_text_refuted, @PropsTools.C42_no_time, @PropsTools.C43_streams_partial, @PropsTools.C43_complete, @PropsTools.C43_none, @PropsTools.C43_second_refuted, @PropsTools.C43_length_refuted, @PropsTools.C44_initial_partial, @PropsTools.C44_defaults).
Print Assumptions PropsTools_1.
Definition PropsTools_2 := (@PropsTools.C44_no_defaults, @PropsTools.C44_default_name, @PropsTools.C44_changed_refuted, @PropsTools.C44_timestamps_refuted, @PropsTools.C45_merge_partial, @PropsTools.C45_unknown, @PropsTools.C45_cut, @PropsTools.C45_no_events, @PropsTools.C45_other, @PropsTools.C45_clock, @PropsTools.C45_lines, @PropsTools.C45_empty_refuted).
Print Assumptions PropsTools_2.
Definition PropsTools_3 := (@PropsTools.C45_order_refuted, @PropsTools.C45_clock_refuted, @PropsTools.C46_track, @PropsTools.C46_thinned, @PropsTools.C46_thinned_unique, @PropsTools.C46_no_modes, @PropsTools.C46_backwards_refuted, @PropsTools.C47_csv_partial, @PropsTools.C47_csv_form, @PropsTools.C47_files, @PropsTools.C47_ros2_partial, @PropsTools.C47_csv_refuted).
Print Assumptions PropsTools_3.
Definition PropsTools_4 := (@PropsTools.C47_ros2_refuted, @PropsTools.C48_alone_partial, @PropsTools.C48_law, @PropsTools.C48_exact, @PropsTools.C48_refuted, @PropsTools.C50_only, @PropsTools.C50_mav_type, @PropsTools.C50_fixed_wing, @PropsTools.C50_estimator, @PropsTools.C50_rc).
Print Assumptions PropsTools_4.

(** PropsWalk.v *)
Definition PropsWalk_0 := (@PropsWalk.C70_law, @PropsWalk.C70_walk, @PropsWalk.C70_one_result, @PropsWalk.C70_trace, @PropsWalk.C71_damage, @PropsWalk.C71_appended_refuted).
Print Assumptions PropsWalk_0.

(** PropsWritable.v *)
Definition PropsWritable_0 := (@PropsWritable.C67_exact, @PropsWritable.C67_loaded, @PropsWritable.C67_every_file_refuted, @PropsWritable.C67_exceptions, @PropsWritable.C67_loaded_exceptions, @PropsWritable.C67_short_column).
Print Assumptions PropsWritable_0.

(** PropsWrite.v *)
Definition PropsWrite_0 := (@PropsWrite.C22_round_trip, @PropsWrite.C23_well_formed, @PropsWrite.C23_not_appended, @PropsWrite.C24_stable_refuted, @PropsWrite.C24_stable_partial, @PropsWrite.C24_stable_second, @PropsWrite.C24_law, @PropsWrite.C25_bool_refuted, @PropsWrite.C25_nan_refuted, @PropsWrite.C25_char_refuted, @PropsWrite.C25_values_partial).
Print Assumptions PropsWrite_0.

(** PropsWriting.v *)
Definition PropsWriting_0 := (@PropsWriting.C62_complete, @PropsWriting.C62_failed, @PropsWriting.C62_failed_head, @PropsWriting.C62_kept_refuted).
Print Assumptions PropsWriting_0.
