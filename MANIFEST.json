{
 "claims": [
  {
   "property": "C01",
   "status": "proved",
   "theorems": [
    "C01_utf8_roundtrip",
    "C01_ignore_total",
    "C01_strict_exact",
    "C01_strict_error"
   ],
   "note": ""
  },
  {
   "property": "C02",
   "status": "proved",
   "theorems": [
    "C02_delivery",
    "C02_delivery_header_only"
   ],
   "note": ""
  },
  {
   "property": "C03",
   "status": "partial",
   "theorems": [
    "C03_exact",
    "C03_decided",
    "C03_terminates_refuted",
    "C03_terminates_partial",
    "C03_terminates_data_partial",
    "C03_deterministic"
   ],
   "note": "Refuted as stated: a 19-byte file makes every load loop for ever (definition section). Proved: the exact law (C03_exact: a load never finishes iff the definition reader comes to some byte offset twice; otherwise it has a result), and two sufficient conditions: no corrupt header announces more bytes than are left, or the definition section is intact (the data section always terminates)."
  },
  {
   "property": "C04",
   "status": "partial",
   "theorems": [
    "C04_first_law",
    "C04_first_again",
    "C04_cut_partial",
    "C04_cut_refuted"
   ],
   "note": "Proved for every cut after the first data message; refuted for a cut inside the first data message. Exact law for those (C04_first_law): struct.error if its header is cut, else the reader goes back by the announced size (OSError before the start of a file on disk) and reads what lies there; C04_first_again: definitions read twice."
  },
  {
   "property": "C05",
   "status": "proved",
   "theorems": [
    "C05_not_a_ulog",
    "C05_version_start"
   ],
   "note": ""
  },
  {
   "property": "C06",
   "status": "proved",
   "theorems": [
    "C06_sync_search"
   ],
   "note": ""
  },
  {
   "property": "C07",
   "status": "partial",
   "theorems": [
    "C07_overlong",
    "C07_recovery_refuted",
    "C07_corrupt_header_partial",
    "C07_unknown_message",
    "C07_sync_inv_start",
    "C07_sync_inv_step"
   ],
   "note": "Proved for corrupt headers whose announced bytes are in the file, and for unknown messages; refuted when the announced size exceeds the rest of the file: then all from there on is ignored without a flag (C07_overlong, for every log and rest). The whole way of the reader through any file is C70, logs with any number of damaged places C71."
  },
  {
   "property": "C08",
   "status": "proved",
   "theorems": [
    "C08_load_is_readings",
    "C08_monotone"
   ],
   "note": ""
  },
  {
   "property": "C09",
   "status": "proved",
   "theorems": [
    "C09_filter",
    "C09_framed",
    "C09_header_only",
    "C09_reuse_refuted",
    "C09_untimed_refuted"
   ],
   "note": "Under the stated condition that ids are not reused in a section, and that the unfiltered load reads to the end, i.e. no stored sample lacks a timestamp (one without it silently ends the load: C09_untimed_refuted; ids used again: C09_reuse_refuted). Times of parameter changes and dropouts may be earlier, since they are those of the last sample read."
  },
  {
   "property": "C10",
   "status": "proved",
   "theorems": [
    "C10_columns",
    "C10_samples"
   ],
   "note": ""
  },
  {
   "property": "C11",
   "status": "proved",
   "theorems": [
    "C11_sorted",
    "C11_get_dataset"
   ],
   "note": ""
  },
  {
   "property": "C12",
   "status": "proved",
   "theorems": [
    "C12_timestamps",
    "C12_ordered"
   ],
   "note": ""
  },
  {
   "property": "C13",
   "status": "proved",
   "theorems": [
    "C13_info",
    "C13_types_in_step"
   ],
   "note": ""
  },
  {
   "property": "C14",
   "status": "proved",
   "theorems": [
    "C14_groups",
    "C14_concat"
   ],
   "note": ""
  },
  {
   "property": "C15",
   "status": "partial",
   "theorems": [
    "C15_law",
    "C15_defaults_partial",
    "C15_defaults_refuted"
   ],
   "note": "Exact law proved (bit i lands under type 2^i-1); documented rule proved for types 0 and 1; refuted for bit 2."
  },
  {
   "property": "C16",
   "status": "proved",
   "theorems": [
    "C16_law",
    "C16_flattened",
    "C16_resolves"
   ],
   "note": "C16_flattened: the fields of every loaded dataset are the expansion. C16_resolves: a topic with distinct, non-empty names is accepted. C16_law: a subscription to any format that resolves is accepted exactly if the names of its columns are distinct (numpy calls a field without a name f<i>), and refused with ValueError otherwise."
  },
  {
   "property": "C17",
   "status": "partial",
   "theorems": [
    "C17_accepted_partial",
    "C17_padding_refuted"
   ],
   "note": "Proved: exactly the payloads without padding bytes are accepted; refuted: payloads with padding bytes are dropped and flagged."
  },
  {
   "property": "C18",
   "status": "proved",
   "theorems": [
    "C18_header_only"
   ],
   "note": ""
  },
  {
   "property": "C19",
   "status": "proved",
   "theorems": [
    "C19_refused",
    "C19_loaded_compatible"
   ],
   "note": ""
  },
  {
   "property": "C20",
   "status": "partial",
   "theorems": [
    "C20_beyond",
    "C20_beyond_refused",
    "C20_sections",
    "C20_same_as_one_partial",
    "C20_same_as_one_refuted"
   ],
   "note": "Section-wise reading proved in full; offsets at or beyond the end of the file make no difference (C20_beyond) unless seek refuses them (C20_beyond_refused: OverflowError, ValueError or OSError). Equality with one section proved when appended sections have no subscription/data messages; refuted in general."
  },
  {
   "property": "C21",
   "status": "partial",
   "theorems": [
    "C21_defects",
    "C21_law",
    "C21_traceless",
    "C21_first_partial",
    "C21_malformed_refuted",
    "C21_malformed_partial"
   ],
   "note": "Refuted: a wrong-size info value silently ends the section. Proved instead, exactly: everything is processed when no message has one of the listed defects (C21_malformed_partial); the defects are the listed ones and no others, read off the payloads (C21_defects); a message with one makes everything behind it in the file irrelevant to the outcome (C21_law), leaves no trace itself unless it is a data message (C21_traceless), and if it is the first one the log is that of the messages up to it (C21_first_partial)."
  },
  {
   "property": "C22",
   "status": "proved",
   "theorems": [
    "C22_round_trip"
   ],
   "note": "Every object that satisfies fits_format (SpecWrite.v) is written and read back as a copy_of itself; copy_of lists all compared parts. Files up to 2^62 bytes."
  },
  {
   "property": "C23",
   "status": "proved",
   "theorems": [
    "C23_well_formed",
    "C23_not_appended"
   ],
   "note": "For every object for which the writer returns. Contents of data messages are described for columns of the type of their field, as loaded columns are."
  },
  {
   "property": "C24",
   "status": "partial",
   "theorems": [
    "C24_stable_refuted",
    "C24_stable_partial",
    "C24_stable_second",
    "C24_law"
   ],
   "note": "Refuted as stated: tags of tagged messages listed in another order than by their first message. Proved when they are in that order, and in general from the second write on. C24_law: the second file is the first one exactly if, of any two tags that have messages of the same time, the one listed first had its first message not later."
  },
  {
   "property": "C25",
   "status": "partial",
   "theorems": [
    "C25_bool_refuted",
    "C25_nan_refuted",
    "C25_char_refuted",
    "C25_values_partial"
   ],
   "note": "Refuted as stated: bool bytes above 1, signalling NaN, chars above 127. Proved: a sample is written as the bytes it was loaded from exactly if it has none of these, for every well-formed log."
  },
  {
   "property": "C26",
   "status": "proved",
   "theorems": [
    "C26_changes",
    "C26_unique",
    "C26_lookup",
    "C26_missing",
    "C26_loaded"
   ],
   "note": ""
  },
  {
   "property": "C27",
   "status": "proved",
   "theorems": [
    "C27_bytes",
    "C27_absent",
    "C27_flag",
    "C27_string",
    "C27_not_integer"
   ],
   "note": ""
  },
  {
   "property": "C28",
   "status": "partial",
   "theorems": [
    "C28_decides",
    "C28_symmetric",
    "C28_transitive",
    "C28_same_bytes_partial",
    "C28_same_bytes_refuted",
    "C28_parameter_differs",
    "C28_sample_differs",
    "C28_exact"
   ],
   "note": "== decides sameness of contents on loaded logs, is symmetric and transitive; two loads of the same bytes are equal unless an info value or parameter is NaN (then they differ, shown by C28_same_bytes_refuted). C28_exact: two loads of the same bytes are equal exactly if there is no NaN among infos and parameters."
  },
  {
   "property": "C29",
   "status": "proved",
   "theorems": [
    "C29_round_trip",
    "C29_equal",
    "C29_corrupt_refuted",
    "C29_numbers_refuted",
    "C29_formats_refuted",
    "C29_large_refuted",
    "C29_datasets_refuted",
    "C29_json_refuted"
   ],
   "note": "Storage conditions: fits_db (SpecDb.v), file not flagged as damaged, no filtered or missing ids. Outside them (findings, _refuted): the damage flag is not stored, numbers in info lists come back as text, formats without fields are lost, integers of 2^63 and more and two datasets of one name and instance cannot be saved, nor minus infinity with append_json."
  },
  {
   "property": "C30",
   "status": "proved",
   "theorems": [
    "C30_map",
    "C30_listed",
    "C30_others",
    "C30_good"
   ],
   "note": "For every history from a new database; logs within fits_db open as saved, for all others C30_others shows that no operation on another key changes what opening them gives."
  },
  {
   "property": "C31",
   "status": "proved",
   "theorems": [
    "C31_delete",
    "C31_no_orphans",
    "C31_owned",
    "C31_failed",
    "C31_exceptions"
   ],
   "note": ""
  },
  {
   "property": "C32",
   "status": "partial",
   "theorems": [
    "C32_key",
    "C32_delete_after",
    "C32_database_partial",
    "C32_duplicate_refuted",
    "C32_stale_key_refuted"
   ],
   "note": "The database and the contents of the object are unchanged by a failed save. Refuted: the key of the object is set, and delete() on it removes another log. C32_key is the exact law: the key stays, or becomes that of the stored log with the same hash, or the key that the next successful save gives; C32_delete_after says what delete() then does."
  },
  {
   "property": "C33",
   "status": "proved",
   "theorems": [
    "C33_hashes",
    "C33_rows",
    "C33_duplicate"
   ],
   "note": ""
  },
  {
   "property": "C34",
   "status": "partial",
   "theorems": [
    "C34_hash",
    "C34_by_name_partial",
    "C34_by_name_loads",
    "C34_old_schema",
    "C34_handle_refuted"
   ],
   "note": "Proved for files given by name. Refuted for open file objects: the hash reads them to the end, so loading always raises TypeError."
  },
  {
   "property": "C35",
   "status": "proved",
   "theorems": [
    "C35_get",
    "C35_resave_refuted"
   ],
   "note": "C35_resave_refuted is a further finding: a lazily opened log that is deleted and saved again has lost its samples."
  },
  {
   "property": "C36",
   "status": "partial",
   "theorems": [
    "C36_grouped",
    "C36_many",
    "C36_succeeds",
    "C36_exact",
    "C36_load_partial",
    "C36_lists_refuted"
   ],
   "note": "Scalars, dictionaries and datasets are unchanged by a second load; refuted for the lists (changed parameters, logged messages, dropouts, offsets, the messages of each tag and the fields of each format), which are doubled. C36_exact: the second load changes nothing exactly if all of these are empty. C36_many: after any number n of loads each list is the stored one n times, everything else is as after the first load; C36_succeeds: the further loads do not fail."
  },
  {
   "property": "C37",
   "status": "proved",
   "theorems": [
    "C37_order",
    "C37_applies",
    "C37_rerun",
    "C37_newer",
    "C37_refused",
    "C37_create",
    "C37_populated_refuted"
   ],
   "note": "Order, result, rerun and newer databases for all scripts; C37_populated_refuted is a finding: a database at version 1 that holds a log cannot be migrated (script 2 fails on its foreign keys)."
  },
  {
   "property": "C38",
   "status": "proved",
   "theorems": [
    "C38_failure",
    "C38_only",
    "C38_transactions_refuted",
    "C38_retry_refuted",
    "C38_unknown_version"
   ],
   "note": "For scripts without transaction statements of their own, which pyulog's are; refuted for others. C38_retry_refuted: after a failure on a missing file, migrate_db refuses the file that it created."
  },
  {
   "property": "C39",
   "status": "partial",
   "theorems": [
    "C39_law",
    "C39_stuck",
    "C39_resumed",
    "C39_crash_partial",
    "C39_refuted"
   ],
   "note": "Refuted as stated: COMMIT and PRAGMA user_version are separate, and a crash between them leaves the version one behind, after which migrate_db refuses or fails. Proved: at every crash point whole scripts are applied and the version is at most one behind (C39_crash_partial). C39_law: the exact state after any number of statements, wrong for one number per script. C39_stuck: killed there on the way from version 2 or 3, a database is stuck whatever it holds: every further run raises OperationalError and changes nothing. C39_resumed: on the way from 4 the next run gives the result of a run that was not killed."
  },
  {
   "property": "C40",
   "status": "proved",
   "theorems": [
    "C40_noop",
    "C40_missing_refuted",
    "C40_reads"
   ],
   "note": "For existing databases; a missing file is created (C40_missing_refuted)."
  },
  {
   "property": "C41",
   "status": "partial",
   "theorems": [
    "C41_same_samples",
    "C41_window_partial",
    "C41_limits",
    "C41_keys",
    "C41_selects",
    "C41_missing",
    "C41_load",
    "C41_end_refuted",
    "C41_zero_refuted",
    "C41_filter"
   ],
   "note": "Refuted as stated: a limit after the last sample raises IndexError and an end of 0 is no limit. Proved: for limits that are reached the rows are those of the window, in order, timestamp first, and the same as from an unfiltered load (C41_same_samples)."
  },
  {
   "property": "C42",
   "status": "partial",
   "theorems": [
    "C42_characters",
    "C42_text_law",
    "C42_table",
    "C42_limits",
    "C42_columns",
    "C42_rectangular",
    "C42_printed_partial",
    "C42_quote_refuted",
    "C42_text_refuted",
    "C42_no_time"
   ],
   "note": "Refuted as stated: delimiters in texts are not quoted, and texts with bytes above 127 raise ValueError. Proved otherwise: header, rows, columns and printed values, and reading back by splitting. C42_text_law: ValueError exactly if a text in the window has a byte above 127 before its first NUL (C42_characters)."
  },
  {
   "property": "C43",
   "status": "partial",
   "theorems": [
    "C43_law",
    "C43_streams_partial",
    "C43_complete",
    "C43_none",
    "C43_second_refuted",
    "C43_length_refuted"
   ],
   "note": "Refuted for further gps_dump datasets (not written) and lengths beyond the data fields (KeyError). Proved: the streams of the first dataset. C43_law: KeyError exactly if a row of the wanted instance is longer than the data fields."
  },
  {
   "property": "C44",
   "status": "partial",
   "theorems": [
    "C44_initial_partial",
    "C44_defaults",
    "C44_no_defaults",
    "C44_default_name",
    "C44_changed_refuted",
    "C44_timestamps_refuted"
   ],
   "note": "Proved: every initial or default parameter once, sorted, with its later values. Refuted: parameters set only during the log are missing, and with timestamps --initial/--default do not leave out the changes."
  },
  {
   "property": "C45",
   "status": "partial",
   "theorems": [
    "C45_empty",
    "C45_merge_partial",
    "C45_unknown",
    "C45_cut",
    "C45_no_events",
    "C45_other",
    "C45_clock",
    "C45_lines",
    "C45_empty_refuted",
    "C45_order_refuted",
    "C45_clock_refuted"
   ],
   "note": "Proved for PX4 logs without empty messages and for times up to 2^53. Refuted: an empty message raises IndexError, logs of other systems are not sorted, very late times show a wrong second. C45_empty: a PX4 log can be listed exactly if it has no empty message. C45_cut: a sample that lacks a value ends the list of events and keeps those before it."
  },
  {
   "property": "C46",
   "status": "proved",
   "theorems": [
    "C46_track",
    "C46_thinned",
    "C46_thinned_unique",
    "C46_no_modes",
    "C46_backwards_refuted"
   ],
   "note": "For timestamps that do not decrease; C46_backwards_refuted shows why. Coordinates are not modelled, samples are identified by their index."
  },
  {
   "property": "C47",
   "status": "partial",
   "theorems": [
    "C47_csv_exact",
    "C47_ros2_exact",
    "C47_csv_partial",
    "C47_csv_form",
    "C47_files",
    "C47_ros2_partial",
    "C47_csv_refuted",
    "C47_ros2_refuted"
   ],
   "note": "Refuted as stated by a/b and a_b, and by a (two instances) and a_1. Proved for names without a slash (CSV) and without an instance suffix (ROS 2). Exactly when two datasets share a file or topic: C47_csv_exact, C47_ros2_exact."
  },
  {
   "property": "C48",
   "status": "partial",
   "theorems": [
    "C48_alone_partial",
    "C48_law",
    "C48_exact",
    "C48_refuted"
   ],
   "note": "Refuted: the setting is a class attribute. Proved: a load is as on its own if loads that begin while it runs have the same setting. Steps are whole messages. C48_law: whatever the settings, each step of a load runs with the setting of the load that began last before it; C48_exact: a load is as on its own, whatever its steps do, exactly if no step of it runs with another setting than its own."
  },
  {
   "property": "C49",
   "status": "proved",
   "theorems": [
    "C49_rebuild",
    "C49_ranges",
    "C49_unique",
    "C49_sign",
    "C49_lock_refuted",
    "C49_rows",
    "C49_length",
    "C49_others",
    "C49_missing",
    "C49_default"
   ],
   "note": "In exact real arithmetic (columns are float32 in the code; rounding is not modelled). In gimbal lock, which the property excludes, the angles can be those of another rotation: C49_lock_refuted. Also: which tables get which columns, when the call raises KeyError, and that nothing else changes. Uses the standard library's axioms of the real numbers, functional extensionality and excluded middle."
  },
  {
   "property": "C50",
   "status": "proved",
   "theorems": [
    "C50_only",
    "C50_mav_type",
    "C50_fixed_wing",
    "C50_estimator",
    "C50_rc"
   ],
   "note": ""
  },
  {
   "property": "C51",
   "status": "proved",
   "theorems": [
    "C51_every_load_has_a_trace",
    "C51_trace_unique",
    "C51_definitions_in_order",
    "C51_framed"
   ],
   "note": "A trace is the walk of C70 and so unique (C51_trace_unique): 'there are messages such that' speaks of one definite list."
  },
  {
   "property": "C52",
   "status": "proved",
   "theorems": [
    "C52_well_formed"
   ],
   "note": ""
  },
  {
   "property": "C53",
   "status": "proved",
   "theorems": [
    "C53_kept",
    "C53_times"
   ],
   "note": "Times must be whole numbers, and are cut off at 64 bits; those up to 2^53 are exact (C53_times)."
  },
  {
   "property": "C54",
   "status": "partial",
   "theorems": [
    "C54_statements",
    "C54_map",
    "C54_hashes",
    "C54_race",
    "C54_race_refuted",
    "C54_apart",
    "C54_stored",
    "C54_atomic",
    "C54_torn_partial",
    "C54_torn_order",
    "C54_torn_law",
    "C54_torn_possible",
    "C54_torn_refuted",
    "C54_type_refuted"
   ],
   "note": "Each SELECT of an open sees what is committed when it runs (sqlite3 does not open a transaction for SELECTs); a save is a look for the hash at any earlier time and one transaction. Map, hashes and keys: every schedule. Opening while others save and delete other logs, or save this one, gives the log as before or as after. Missing: a log deleted while it is opened can come back without an exception and without some of its parts (C54_torn_refuted); what is then left is bounded by C54_torn_partial and read in order (C54_torn_order: behind a part that is not whole, all are empty). C54_torn_law: exactly, every open is one with a single deletion before some statement, and each of these can happen (C54_torn_possible). A save that loses a race raises IntegrityError, not KeyError."
  },
  {
   "property": "C55",
   "status": "proved",
   "theorems": [
    "C55_report",
    "C55_printed",
    "C55_loaded",
    "C55_bytes",
    "C55_message",
    "C55_hex",
    "C55_not_found",
    "C55_printed_refuted",
    "C55_numbers_refuted",
    "C55_order_refuted",
    "C55_agrees",
    "C55_failed",
    "C55_message_failed"
   ],
   "note": "str() of info values is abstract. The two conditions are needed (C55_printed_refuted): a software version stored as text gives TypeError, a topic without timestamp, of which the reader keeps one sample, gives KeyError. -m raises TypeError for entries that hold numbers (C55_numbers_refuted), and rows are in the order of the text of name and instance, so instance 10 comes before 2 (C55_order_refuted)."
  },
  {
   "property": "C56",
   "status": "proved",
   "theorems": [
    "C56_same_file",
    "C56_round_trip",
    "C56_lazy",
    "C56_from_file_refuted"
   ],
   "note": "Equality of the whole outcome, exceptions included (a bool comes back from the database as an int, which is packed alike). Finding: an object made from a file refuses to be written unless lazy=False is passed (C56_from_file_refuted)."
  },
  {
   "property": "C57",
   "status": "proved",
   "theorems": [
    "C57_mixed",
    "C57_database",
    "C57_symmetric",
    "C57_saved",
    "C57_opened_twice",
    "C57_saver",
    "C57_saver_refuted",
    "C57_handles_refuted"
   ],
   "note": "Logs without subscription table (an attribute of the reader that the database does not store) on both sides, dicts with distinct keys. Findings: the object that saved a log with the default lazy=True is not == to the one opened with lazy=False (C57_saver_refuted), and objects opened through two handles of one file never are (C57_handles_refuted)."
  },
  {
   "property": "C58",
   "status": "proved",
   "theorems": [
    "C58_bag",
    "C58_type",
    "C58_type_unique",
    "C58_index",
    "C58_times",
    "C58_no_time",
    "C58_time_refuted",
    "C58_float_time_refuted",
    "C58_longer_refuted"
   ],
   "note": "px4_msgs, the conversion at assignment and the behaviour of numpy (1 or 2) are parameters; times up to 2^63 ns (numpy 2) or 2^53 ns (numpy 1). Findings: larger times are wrong without notice (C58_time_refuted, C58_float_time_refuted); an array longer than that of the class ends the whole conversion with IndexError (C58_longer_refuted)."
  },
  {
   "property": "C59",
   "status": "proved",
   "theorems": [
    "C59_map",
    "C59_one",
    "C59_command",
    "C59_value",
    "C59_absent",
    "C59_palette",
    "C59_distinct",
    "C59_red",
    "C59_mode_refuted",
    "C59_topics_refuted",
    "C59_list_refuted",
    "C59_colours_refuted",
    "C59_camera_refuted"
   ],
   "note": "Coordinates are exact terms; the rounding of floats and the KML text are not modelled. Timestamps do not decrease. Findings: modes from 18 on, several topics with one colour function, fewer colours than topics, unscaled camera triggers."
  },
  {
   "property": "C60",
   "status": "proved",
   "theorems": [
    "C60_format",
    "C60_format_refused",
    "C60_format_unique",
    "C60_info",
    "C60_open_refuted",
    "C60_negative_refuted",
    "C60_colon_refuted"
   ],
   "note": "Digits and blanks outside ASCII and the digit limit of int() are not modelled. Findings: unclosed brackets, negative sizes, second colon."
  },
  {
   "property": "C61",
   "status": "partial",
   "theorems": [
    "C61_cut_partial",
    "C61_written",
    "C61_cut_definitions",
    "C61_cut_flags",
    "C61_text_refuted",
    "C61_first_refuted",
    "C61_reused_refuted",
    "C61_first_message"
   ],
   "note": "Proved for cuts after the first message of the data section and logs without re-used message ids; exact law for cuts inside the definitions. Refuted: a cut definition text is read as a shorter one without any sign, a cut first data message makes definitions be read again as data (or OSError), a re-used message id makes the complete log lack samples of the cut one."
  },
  {
   "property": "C62",
   "status": "proved",
   "theorems": [
    "C62_complete",
    "C62_failed",
    "C62_failed_head",
    "C62_kept_refuted"
   ],
   "note": "Opening and writing to the file succeed. Finding (C62_kept_refuted): a failed write destroys the old contents of the file, and what is there instead loads without any sign of damage."
  },
  {
   "property": "C63",
   "status": "partial",
   "theorems": [
    "C63_own",
    "C63_own_damaged",
    "C63_own_malformed",
    "C63_default",
    "C63_no_events",
    "C63_downloads",
    "C63_history_partial",
    "C63_main",
    "C63_offline",
    "C63_empty_refuted"
   ],
   "note": "The event parser, json and lzma are arbitrary functions. Refuted: definitions that cannot be loaded leave an empty parser as default, so that all later logs show unknown events and nothing is downloaded again. Independence of the history is proved if the downloaded definitions are the same and can be loaded."
  },
  {
   "property": "C64",
   "status": "proved",
   "theorems": [
    "C64_complete",
    "C64_failed",
    "C64_limit",
    "C64_text",
    "C64_no_time",
    "C64_header_refuted",
    "C64_gps_complete",
    "C64_gps"
   ],
   "note": "C64_header_refuted: a failed conversion cannot always be told from its files (a header-only file is also the result of an empty time range). Opening and writing the files is taken to succeed."
  },
  {
   "property": "C65",
   "status": "proved",
   "theorems": [
    "C65_exceptions",
    "C65_causes",
    "C65_exact",
    "C65_saved",
    "C65_json",
    "C65_json_plain",
    "C65_refused"
   ],
   "note": "C65_exact: the equivalence without JSON copies; C65_json: the equivalence with them, C65_json_plain a simpler sufficient condition; C65_saved for any failing statement; C65_refused. C65_exceptions: every exception and what it says about the log (SpecRefused.v), C65_causes: what it says is a reason."
  },
  {
   "property": "C66",
   "status": "proved",
   "theorems": [
    "C66_texts",
    "C66_storable",
    "C66_save",
    "C66_unnamed_refuted",
    "C66_exceptions"
   ],
   "note": "C66_unnamed_refuted: a field without a name is loaded (numpy calls its column f1), but such a log cannot be saved (KeyError)."
  },
  {
   "property": "C67",
   "status": "proved",
   "theorems": [
    "C67_exact",
    "C67_loaded",
    "C67_every_file_refuted",
    "C67_exceptions",
    "C67_loaded_exceptions",
    "C67_short_column"
   ],
   "note": "C67_every_file_refuted: files with an information message of type float[1], a default with the fifth bit, a 64-bit parameter, or two types under one key of multiple messages are loaded without complaint, but writing the log raises KeyError, struct.error or TypeError. The hypothesis covered leaves out what the model does not define: timestamps that are floats."
  },
  {
   "property": "C68",
   "status": "proved",
   "theorems": [
    "C68_csv_files",
    "C68_csv_log",
    "C68_gps_files",
    "C68_gps_log",
    "C68_one_output",
    "C68_bad_log",
    "C68_csv_status",
    "C68_csv_selection",
    "C68_dir_refuted",
    "C68_gps_status",
    "C68_gps_dump",
    "C68_params_file",
    "C68_params_initial",
    "C68_no_topics",
    "C68_times_refuted",
    "C68_format_refuted",
    "C68_overwrite_refuted",
    "C68_messages",
    "C68_info_text",
    "C68_info_report",
    "C68_info_message",
    "C68_messages_text",
    "C68_lines_back",
    "C68_default",
    "C68_default_word",
    "C68_kml_map",
    "C68_kml_fail",
    "C68_map_input",
    "C68_csv_screen",
    "C68_gps_screen",
    "C68_gps_quiet",
    "C68_info_screen",
    "C68_info_lines"
   ],
   "note": "Programs over a disk (files and directories) with an arbitrary loader; end-to-end theorems take the reader of ModelRead. Findings: -i -t of ulog_params lists all changes with the start time (C68_times_refuted, explained by C68_no_topics), an unknown format empties the output file with status 0 (C68_format_refuted), the output directory of ulog2csv is made before the log is opened (C68_dir_refuted), an output file equal to the log replaces it (C68_overwrite_refuted). C68_info_text, C68_messages_text: printed lines; C68_default: the words of -d; C68_kml_map: the map file. C68_csv_screen, C68_gps_screen: the progress lines against the files (ModelScreen.v)."
  },
  {
   "property": "C69",
   "status": "proved",
   "theorems": [
    "C69_scripts",
    "C69_not_dir",
    "C69_refused",
    "C69_noop",
    "C69_run",
    "C69_field",
    "C69_names",
    "C69_template",
    "C69_stray",
    "C69_noop_refuted",
    "C69_braces_refuted",
    "C69_template_refuted"
   ],
   "note": "C69_scripts: outcome and database file equal those of migrate_db (C37, C38, C40) on the scripts lying under the names pyulog.1.sql to pyulog.5.sql of the directory. C69_refused: a first script that is not delimited gives ValueError, the three head lines and an unchanged database. C69_not_dir: nothing happens without the directory. C69_noop: the exact lines of a dry run. C69_run: a run names a prefix of the scripts of the dry run, all if it succeeds. C69_names: with doubled braces or {migration_id} in the name of the directory, the scripts that are read are those named by the text with single braces and the number in it. C69_stray: a single brace gives ValueError. Findings: the name of the directory is a part of a format string. C69_field: with a field {x} in the name, KeyError or IndexError whatever the directory holds (C69_braces_refuted); C69_template: with {migration_id} the scripts of other directories are executed (C69_template_refuted); C69_noop_refuted: with -n a missing database is created empty and refused afterwards. How SQLite splits a text into statements is an arbitrary function, so C69_scripts assumes for each accepted script what its statements are; fields with an attribute, an index, a conversion or a format in the directory's name are not modelled."
  },
  {
   "property": "C70",
   "status": "proved",
   "theorems": [
    "C70_law",
    "C70_walk",
    "C70_one_result",
    "C70_trace"
   ],
   "note": "C70_law is an equivalence over all files; C70_walk: existence and uniqueness of the walk of a section; C70_trace: the messages a loaded log consists of are those of the walk, and C51, C09, C10, C12-C14, C16, C18, C55 speak of the same walk."
  },
  {
   "property": "C71",
   "status": "proved",
   "theorems": [
    "C71_damage",
    "C71_appended_refuted"
   ],
   "note": "C71_damage. Finding (C71_appended_refuted): with appended data the same is false; resuming inside a swallowing message, the reader counts that message's whole size, so that the section seems to end early and its last messages are lost."
  },
  {
   "property": "C72",
   "status": "proved",
   "theorems": [
    "C72_law",
    "C72_object",
    "C72_save",
    "C72_save_refused",
    "C72_told",
    "C72_distinct_refuted",
    "C72_null_refuted"
   ],
   "note": "repr() of finite floats is an arbitrary function with JSON numbers as values (json_number, RFC 8259, 6). C72_law: when the text is JSON; C72_object: its only reading; C72_save, C72_save_refused: what save does; C72_told: what the text determines. C72_distinct_refuted, C72_null_refuted: repeated timestamps, NaN and infinity lose values. Timestamps of a float type are left out."
  },
  {
   "property": "C73",
   "status": "partial",
   "theorems": [
    "C73_version_partial",
    "C73_version_law",
    "C73_version_refuted",
    "C73_written",
    "C73_agrees",
    "C73_no_time",
    "C73_left",
    "C73_wrong_version",
    "C73_name",
    "C73_selection",
    "C73_no_bag",
    "C73_unavailable_refuted",
    "C73_verbose_refuted"
   ],
   "note": "Refuted as stated: versions are compared as texts, so the arguments are wrong exactly for 0.3.x-0.9.x, 0.100.x-0.249.x, 0.1000.x-0.2499.x and so on (id), and for 0.4.x-0.9.x, 0.100.x-0.319.x, 0.1000.x-0.3199.x and so on (sequence number) (C73_version_law, for every minor number), and the run then ends at the first topic (C73_wrong_version); proved for all versions with a >= 1, b <= 2 or 10 <= b <= 99. Without ROS the status is 0 and there is no bag (C73_unavailable_refuted); -v with a text as software version ends with an empty bag (C73_verbose_refuted). Missing: what serialize_message and the storage do with a message."
  },
  {
   "property": "C74",
   "status": "proved",
   "theorems": [
    "C74_place",
    "C74_before",
    "C74_closed",
    "C74_write",
    "C74_write_failed",
    "C74_write_closed",
    "C74_round_trip",
    "C74_behind_refuted",
    "C74_appended_refuted",
    "C74_back_refuted"
   ],
   "note": "Objects up to 2^50 bytes, logs up to 2^40. Findings: writing over a longer log leaves its end, which is loaded as part of the new one; offsets of appended data count from the start of the object, so that an appended log inside another file loses its data; a cut log behind another one loads the messages of that one without a sign."
  },
  {
   "property": "C75",
   "status": "proved",
   "theorems": [
    "C75_text",
    "C75_text_total",
    "C75_text_valid",
    "C75_text_written",
    "C75_int",
    "C75_int_written",
    "C75_float",
    "C75_float_written",
    "C75_double_written",
    "C75_int_as_float",
    "C75_info",
    "C75_element",
    "C75_samples"
   ],
   "note": "SpecNumber.v defines the encodings without the readers: integers by weights and residues, IEEE 754 by sign, exponent and fraction, UTF-8 by the table of Unicode. That CPython's struct, float and codec agree with these standards is trusted."
  },
  {
   "property": "C76",
   "status": "proved",
   "theorems": [
    "C76_flag",
    "C76_walk",
    "C76_once",
    "C76_header_only",
    "C76_header_first"
   ],
   "note": "The flag and the warned ids of every log that loads, as an equivalence with what lies on the (unique, C70) walk through the file. The text of the warning is not modelled."
  }
 ]
}