# Formal model of PX4/pyulog in Rocq (Coq 8.16.1)

## Approach

Every function of the modelled code becomes a small total Gallina function; exceptions are
values (`res A := Ok a | Err e`), loops are structural recursion or recursion on explicit fuel with
a distinguished out-of-fuel outcome, mutation becomes returning a new record.  Bytes, code points
and Python integers are `Z`; a byte string or a Python `str` is a `list Z`; Python dicts are
insertion-ordered association lists.  Floats are their IEEE-754 bit patterns.

Layers (files under `rocq/theories`):

| file | content |
|---|---|
| `Base.v`, `Dict.v`, `Utf8.v`, `PyStr.v`, `PyFloat.v`, `Struct.v`, `PySort.v` | Python runtime: exceptions as values, slices, insertion-ordered dicts, UTF-8, `str` methods, IEEE floats as bit patterns, `struct`, stable sort |
| `ModelTypes.v`, `ModelRead.v`, `ModelApi.v`, `ModelWrite.v`, `ModelWriting.v`, `ModelHandle.v` | `core.py` |
| `Sql.v`, `ModelSchema.v`, `Schema5.v`, `ModelDb.v`, `ModelEq.v`, `ModelConc.v`, `ModelMigrate.v`, `ModelScripts.v`, `ModelJson.v` | SQLite, the SQL scripts, `db.py`, `migrate_db.py` |
| `ModelTools.v`, `ModelInfo.v`, `ModelBag.v`, `ModelKml.v`, `ModelAttitude.v`, `ModelEvents.v`, `ModelPartial.v`, `ModelCommand.v`, `ModelRos.v` | the converters and the PX4 helpers |
| `Spec*.v` | small specification vocabulary used by the statements, independent of the model's helpers |
| `Proofs*.v` | lemmas |
| `Props*.v` | the property theorems, `Print Assumptions`, non-vacuity `Example`s |
| `Audit.v` | generated by `tools/audit.py`: `Print Assumptions` of every property theorem |

Naming: `Cnn_…` are the theorems of property Cnn.  `…_refuted` is a proof, by a concrete counterexample, that
the property (or the stronger form named in the comment) is false of the modelled code.  `…_partial` is a
theorem with a condition that the property in `properties.jsonl` does not have; the comment beside it says
what is missing.

## Plan per property

* C01 UTF-8 codec, model of CPython's strict/ignore decoder; induction on strings.
* C02, C04, C07, C08, C12, C13, C14, C18, C20, C21: reader as a state machine (`defs_loop`, `data_loop`);
  induction over message lists / fuel; invariants over the loop.
* C03: fuelled reader; the definition-section loop can seek backwards on a cut corrupt packet, so the
  full statement is refuted by a 19-byte witness, and termination is proved for everything else.
* C05, C19: case analysis of the header/flag readers lifted to `load`.
* C06: chunked search = unchunked first-occurrence search, strong induction on remaining length.
* C09: simulation relation between the filtered and unfiltered run.
* C10, C11, C16, C17: invariants relating subscriptions to the accepted payloads; independent spec of flattening.
* C15: bit loop; correct for bits 0/1; refuted for bit 2.
* C22-C25: writer model, frame lemmas for each message kind, stable sort lemmas, whole-file round trip.
* C26, C27, C28: pure functions; C28 refuted for NaN parameters.
* C29-C36: relational model of the SQL tables with affinities, cascade delete, transactions.
* C37-C40: migration state machine with statement-level failures and crash points.
* C41-C47, C50: pure models of the command line converters over dataset records.
* C48: two-thread interleaving model of the class-level flag.
* C54: `load` as a program of SELECTs with operations of other processes before each; stored rows are either
  untouched or gone for good (keys are not reused), so every answer is the old one or empty.
* C55: the printed lines as strings; correctly rounded quotients as integers; the row of a dataset is tied to the payloads
  of its subscription through the traces of C51.
  A failing run as a sequence of calls of print (`ModelShown.v`), against the report of the log without the later topics.
* C56: what the database changes in a log (C29) is invisible to the writer, message by message; with C22 and C30.
* C57: by cases on the classes, with C16 (== of two logs is equality of the attributes) and C30.
* C58: the regular expressions are matched by a continuation matcher, proved equal to a readable predicate per pattern; the loop over the fields by induction over the prefix already assigned, the bag by induction over the topics.
* C59: coordinates are terms (element, division, offset) with an exact rational meaning in the specification; the lines of C46 are mapped to line strings, the topics by induction.
* C60: the texts as inductive grammars; the parsers accept exactly the grammar, both directions by induction on the splits.
* C61: a relation "initial part of" between two loaded logs, stated on the public attributes (`SpecCut.v`); the contents of the first messages of a well-formed log are related to those of all of them by induction over the messages, cuts are reduced to that by C04; exact laws for cuts in the definition section and in the first data message.
* C49: exact real arithmetic (`Reals`), standard-library axioms of the reals.
* C62: write_ulog as a list of message computations that are written until one raises; agreement with the
  all-or-nothing writer of C22-C25 is proved; beginnings of an object are prefixes of that list.
* C63: a PX4Events object as its default parser and the calls of the callback so far; histories are lists of logs,
  the callback an arbitrary function of the call number and its argument.  Invariants over histories.
* C64: the converters as sequences of writes that the first exception ends (`ModelPartial.v`), proved to agree with the
  models that give whole files; what is left is stated with the tables of C42 and the streams of C43.
* C65: a predicate on the attributes of a log (`SpecStorable.v`), independent of the tables; save returns when it holds
  (forward simulation over all inserts), and it holds when save returns (inversion of each insert; the unique key
  of the dataset rows excludes repeated instances).  The exceptions (`SpecRefused.v`): a third walk over the statements
  that follows an error to the value that was bound, and shows that foreign keys and names never fail.
* C21 (exact law): the defects as a predicate on payloads (`SpecDefect.v`), equivalence with the reader's struct.error in every state (`ProofsDefect.v`).
* C10 column by column (`PropsColumns.v`); exact laws beside C28, C43, C45 and C47 (`PropsExact.v`).
* C66: an invariant of the reader over all texts and numbers of the object (`ProofsLoaded.v`), for all files; with C65. The exceptions of a refused save: from those of C65 and the invariant (`PropsRefused.v`).
* C67: the conditions of each part of write_ulog() (`SpecWritable.v`), equivalence part by part (`ProofsWritable.v`); for loaded logs a second invariant of the
  reader over sizes and shapes (`ProofsRewritable.v`) that settles all but the listed conditions.
* C68: the programs as functions of a disk (files, directories) and the outcome of loading (`ModelCommand.v`); names by induction on paths, contents by C64,
  selection by the simulation of C09, the times of a load without topics by C12.  The progress lines (`ModelScreen.v`) by induction on the topics, against the files left.
* C69: the program over a disk of script texts (`ModelScripts.v`); names by induction over the format string, the check of a text by
  the two ends of the stripped text, the run by equality with the loop of C37 over the statements that lie under the names.
* C70: the way of the reader as inductive relations over the bytes of a file, without its state (`SpecWalk.v`): existence and uniqueness of the walk by
  strong induction on the bytes left, equality with the loops by induction on the walk, both directions from that (`ProofsWalk.v`).
* C71: damage as an inductive predicate on data sections; the flag commutes with every effect (`ProofsDamage.v`); on top of C70.
* C72: the grammar of RFC 8259 as inductive relations (`SpecJson.v`), shown to have one reading per text; the three replacements token by token; a text with
  `-null` is no JSON by a scanner that every JSON text passes; the dict by induction over the samples from the back (`ProofsJson.v`).
* C73: the program as a function of what is installed, of the loader and of the disk (`ModelRos.v`): versions by comparison of texts (a prefix decides, evaluated for each minor
  number), the bag by induction on topics and samples with the state at each exception, compared with the contributions of C58; `-m` through the filter theorem of C09.
* C74: file objects with a place and a closed flag around `load_at` and the messages of `ModelWriting.v` (`ModelHandle.v`). Simulation: each step of the reader on `a ++ g` at
  `lenZ a + q` is the shifted step on `g` at `q`, unless it goes back before the log; the count that is compared with 2^50 stays below 1000 times the place.
* C75: `SpecNumber.v` defines integers, IEEE 754 numbers and UTF-8 without the readers. Texts: case analysis on the first byte against the table; that dropping one byte at a
  time is dropping the longest ill-formed start is proved, no longer only said in `Utf8.v`. Rounding: the magnitude is strictly increasing in the bits (`mag_lt`), so that the neighbours
  of the rounded number bound all others (`ProofsIeee.v`); doubles of different bits are different numbers (`b64_inj`).
* C76: `SpecFlag.v` lists the reasons for the flag; an invariant over the events of a section relates flag, filtered ids and missing ids to them (`ProofsFlag.v`),
  then induction over the sections and over the definitions; the walk is the unique one of C70.

## Results per property

Generated by `tools/design.py` from `properties.jsonl`, `tools/notes.json` and the theorem names.

* **C01** UTF-8 text survives encode/decode — *proved* (PropsRead.v): `C01_utf8_roundtrip`, `C01_ignore_total`, `C01_strict_exact`, `C01_strict_error`.
* **C02** Well-framed messages are delivered exactly once, in order — *proved* (PropsRead.v): `C02_delivery`, `C02_delivery_header_only`.
* **C03** Loading always terminates — *partial* (PropsHang.v, PropsRead.v): `C03_exact`, `C03_decided`, `C03_terminates_refuted`, `C03_terminates_partial`, `C03_terminates_data_partial`, `C03_deterministic`. Refuted as stated: a 19-byte file makes every load loop for ever (definition section). Proved: the exact law (C03_exact: a load never finishes iff the definition reader comes to some byte offset twice; otherwise it has a result), and two sufficient conditions: no corrupt header announces more bytes than are left, or the definition section is intact (the data section always terminates).
* **C04** A log cut at any byte of its data section keeps every complete message — *partial* (PropsFirst.v, PropsRead.v): `C04_first_law`, `C04_first_again`, `C04_cut_partial`, `C04_cut_refuted`. Proved for every cut after the first data message; refuted for a cut inside the first data message. Exact law for those (C04_first_law): struct.error if its header is cut, else the reader goes back by the announced size (OSError before the start of a file on disk) and reads what lies there; C04_first_again: definitions read twice.
* **C05** A file is rejected as not-a-ULog exactly when its header is bad — *proved* (PropsRead.v): `C05_not_a_ulog`, `C05_version_start`.
* **C06** Sync search is independent of chunking — *proved* (PropsRead.v): `C06_sync_search`.
* **C07** Recovery after a corrupt packet — *partial* (PropsFirst.v, PropsRead.v): `C07_overlong`, `C07_recovery_refuted`, `C07_corrupt_header_partial`, `C07_unknown_message`, `C07_sync_inv_start`, `C07_sync_inv_step`. Proved for corrupt headers whose announced bytes are in the file, and for unknown messages; refuted when the announced size exceeds the rest of the file: then all from there on is ignored without a flag (C07_overlong, for every log and rest). The whole way of the reader through any file is C70, logs with any number of damaged places C71.
* **C08** The corruption flag and collected data never go backwards — *proved* (PropsRead.v): `C08_load_is_readings`, `C08_monotone`.
* **C09** Filtering topics gives the same datasets as loading everything and discarding — *proved* (PropsFilter.v): `C09_filter`, `C09_framed`, `C09_header_only`, `C09_reuse_refuted`, `C09_untimed_refuted`. Under the stated condition that ids are not reused in a section, and that the unfiltered load reads to the end, i.e. no stored sample lacks a timestamp (one without it silently ends the load: C09_untimed_refuted; ids used again: C09_reuse_refuted). Times of parameter changes and dropouts may be earlier, since they are those of the last sample read.
* **C10** Dataset rows are exactly the logged samples — *proved* (PropsColumns.v, PropsRead.v): `C10_columns`, `C10_samples`.
* **C11** data_list is sorted and complete — *proved* (PropsRead.v): `C11_sorted`, `C11_get_dataset`.
* **C12** Timestamps of the log, dropouts and parameter changes — *proved* (PropsRead.v): `C12_timestamps`, `C12_ordered`.
* **C13** Last info message wins and types stay in step — *proved* (PropsRead.v): `C13_info`, `C13_types_in_step`.
* **C14** Info-multiple messages are grouped correctly — *proved* (PropsRead.v): `C14_groups`, `C14_concat`.
* **C15** Default parameters land under the default types whose bits are set — *partial* (PropsRead.v): `C15_law`, `C15_defaults_partial`, `C15_defaults_refuted`. Exact law proved (bit i lands under type 2^i-1); documented rule proved for types 0 and 1; refuted for bit 2.
* **C16** Nested formats are flattened faithfully — *proved* (PropsColumns.v, PropsRead.v): `C16_law`, `C16_flattened`, `C16_resolves`. C16_flattened: the fields of every loaded dataset are the expansion. C16_resolves: a topic with distinct, non-empty names is accepted. C16_law: a subscription to any format that resolves is accepted exactly if the names of its columns are distinct (numpy calls a field without a name f<i>), and refused with ValueError otherwise.
* **C17** Trailing padding is tolerated — *partial* (PropsRead.v): `C17_accepted_partial`, `C17_padding_refuted`. Proved: exactly the payloads without padding bytes are accepted; refuted: payloads with padding bytes are dropped and flagged.
* **C18** Header-only loading agrees with full loading — *proved* (PropsRead.v): `C18_header_only`.
* **C19** Logs with unknown incompatible flags are refused — *proved* (PropsRead.v): `C19_refused`, `C19_loaded_compatible`.
* **C20** Appended sections: the message cut before each offset is dropped and reading resumes at the offset — *partial* (PropsOffsets.v, PropsRead.v): `C20_beyond`, `C20_beyond_refused`, `C20_sections`, `C20_same_as_one_partial`, `C20_same_as_one_refuted`. Section-wise reading proved in full; offsets at or beyond the end of the file make no difference (C20_beyond) unless seek refuses them (C20_beyond_refused: OverflowError, ValueError or OSError). Equality with one section proved when appended sections have no subscription/data messages; refuted in general.
* **C21** A malformed message does not hide the rest of the log — *partial* (PropsDefect.v, PropsRead.v): `C21_defects`, `C21_law`, `C21_traceless`, `C21_first_partial`, `C21_malformed_refuted`, `C21_malformed_partial`. Refuted: a wrong-size info value silently ends the section. Proved instead, exactly: everything is processed when no message has one of the listed defects (C21_malformed_partial); the defects are the listed ones and no others, read off the payloads (C21_defects); a message with one makes everything behind it in the file irrelevant to the outcome (C21_law), leaves no trace itself unless it is a data message (C21_traceless), and if it is the first one the log is that of the messages up to it (C21_first_partial).
* **C22** write_ulog followed by ULog() reproduces the log — *proved* (PropsWrite.v): `C22_round_trip`. Every object that satisfies fits_format (SpecWrite.v) is written and read back as a copy_of itself; copy_of lists all compared parts. Files up to 2^62 bytes.
* **C23** Files written by write_ulog are well formed — *proved* (PropsWrite.v): `C23_well_formed`, `C23_not_appended`. For every object for which the writer returns. Contents of data messages are described for columns of the type of their field, as loaded columns are.
* **C24** Writing is stable — *partial* (PropsWrite.v): `C24_stable_refuted`, `C24_stable_partial`, `C24_stable_second`, `C24_law`. Refuted as stated: tags of tagged messages listed in another order than by their first message. Proved when they are in that order, and in general from the second write on. C24_law: the second file is the first one exactly if, of any two tags that have messages of the same time, the one listed first had its first message not later.
* **C25** write_ulog preserves every sample value — *partial* (PropsWrite.v): `C25_bool_refuted`, `C25_nan_refuted`, `C25_char_refuted`, `C25_values_partial`. Refuted as stated: bool bytes above 1, signalling NaN, chars above 127. Proved: a sample is written as the bytes it was loaded from exactly if it has none of these, for every well-formed log.
* **C26** list_value_changes is the exact change list — *proved* (PropsApi.v): `C26_changes`, `C26_unique`, `C26_lookup`, `C26_missing`, `C26_loaded`.
* **C27** Version info decodes the packed version — *proved* (PropsApi.v): `C27_bytes`, `C27_absent`, `C27_flag`, `C27_string`, `C27_not_integer`.
* **C28** Comparing logs — *partial* (PropsApi.v, PropsExact.v): `C28_decides`, `C28_symmetric`, `C28_transitive`, `C28_same_bytes_partial`, `C28_same_bytes_refuted`, `C28_parameter_differs`, `C28_sample_differs`, `C28_exact`. == decides sameness of contents on loaded logs, is symmetric and transitive; two loads of the same bytes are equal unless an info value or parameter is NaN (then they differ, shown by C28_same_bytes_refuted). C28_exact: two loads of the same bytes are equal exactly if there is no NaN among infos and parameters.
* **C29** A log saved to the database loads back equal — *proved* (PropsDb.v): `C29_round_trip`, `C29_equal`, `C29_corrupt_refuted`, `C29_numbers_refuted`, `C29_formats_refuted`, `C29_large_refuted`, `C29_datasets_refuted`, `C29_json_refuted`. Storage conditions: fits_db (SpecDb.v), file not flagged as damaged, no filtered or missing ids. Outside them (findings, _refuted): the damage flag is not stored, numbers in info lists come back as text, formats without fields are lost, integers of 2^63 and more and two datasets of one name and instance cannot be saved, nor minus infinity with append_json.
* **C30** The database behaves like a map from keys to logs under any history — *proved* (PropsDb.v): `C30_map`, `C30_listed`, `C30_others`, `C30_good`. For every history from a new database; logs within fits_db open as saved, for all others C30_others shows that no operation on another key changes what opening them gives.
* **C31** delete removes exactly the rows of its log — *proved* (PropsDb.v, PropsRefused.v): `C31_delete`, `C31_no_orphans`, `C31_owned`, `C31_failed`, `C31_exceptions`.
* **C32** A failed save leaves the database and the object as they were — *partial* (PropsAgain.v, PropsDb.v): `C32_key`, `C32_delete_after`, `C32_database_partial`, `C32_duplicate_refuted`, `C32_stale_key_refuted`. The database and the contents of the object are unchanged by a failed save. Refuted: the key of the object is set, and delete() on it removes another log. C32_key is the exact law: the key stays, or becomes that of the stored log with the same hash, or the key that the next successful save gives; C32_delete_after says what delete() then does.
* **C33** At most one entry per file hash — *proved* (PropsDb.v): `C33_hashes`, `C33_rows`, `C33_duplicate`.
* **C34** The file hash is the hash of the whole file — *partial* (PropsDb.v): `C34_hash`, `C34_by_name_partial`, `C34_by_name_loads`, `C34_old_schema`, `C34_handle_refuted`. Proved for files given by name. Refuted for open file objects: the hash reads them to the end, so loading always raises TypeError.
* **C35** Lazy loading and caching do not change what a dataset contains — *proved* (PropsDb.v): `C35_get`, `C35_resave_refuted`. C35_resave_refuted is a further finding: a lazily opened log that is deleted and saved again has lost its samples.
* **C36** load is repeatable — *partial* (PropsAgain.v, PropsDb.v): `C36_grouped`, `C36_many`, `C36_succeeds`, `C36_exact`, `C36_load_partial`, `C36_lists_refuted`. Scalars, dictionaries and datasets are unchanged by a second load; refuted for the lists (changed parameters, logged messages, dropouts, offsets, the messages of each tag and the fields of each format), which are doubled. C36_exact: the second load changes nothing exactly if all of these are empty. C36_many: after any number n of loads each list is the stored one n times, everything else is as after the first load; C36_succeeds: the further loads do not fail.
* **C37** Migrations run in order, once, up to the schema version — *proved* (PropsMigrate.v): `C37_order`, `C37_applies`, `C37_rerun`, `C37_newer`, `C37_refused`, `C37_create`, `C37_populated_refuted`. Order, result, rerun and newer databases for all scripts; C37_populated_refuted is a finding: a database at version 1 that holds a log cannot be migrated (script 2 fails on its foreign keys).
* **C38** A failing or missing migration leaves the database at the last completed version — *proved* (PropsMigrate.v): `C38_failure`, `C38_only`, `C38_transactions_refuted`, `C38_retry_refuted`, `C38_unknown_version`. For scripts without transaction statements of their own, which pyulog's are; refuted for others. C38_retry_refuted: after a failure on a missing file, migrate_db refuses the file that it created.
* **C39** Schema and version agree after a crash — *partial* (PropsKilled.v, PropsMigrate.v): `C39_law`, `C39_stuck`, `C39_resumed`, `C39_crash_partial`, `C39_refuted`. Refuted as stated: COMMIT and PRAGMA user_version are separate, and a crash between them leaves the version one behind, after which migrate_db refuses or fails. Proved: at every crash point whole scripts are applied and the version is at most one behind (C39_crash_partial). C39_law: the exact state after any number of statements, wrong for one number per script. C39_stuck: killed there on the way from version 2 or 3, a database is stuck whatever it holds: every further run raises OperationalError and changes nothing. C39_resumed: on the way from 4 the next run gives the result of a run that was not killed.
* **C40** noop does not modify an existing database — *proved* (PropsMigrate.v): `C40_noop`, `C40_missing_refuted`, `C40_reads`. For existing databases; a missing file is created (C40_missing_refuted).
* **C41** extract_message returns the samples in the time window — *partial* (PropsFilter.v, PropsTools.v): `C41_same_samples`, `C41_window_partial`, `C41_limits`, `C41_keys`, `C41_selects`, `C41_missing`, `C41_load`, `C41_end_refuted`, `C41_zero_refuted`, `C41_filter`. Refuted as stated: a limit after the last sample raises IndexError and an end of 0 is no limit. Proved: for limits that are reached the rows are those of the window, in order, timestamp first, and the same as from an unfiltered load (C41_same_samples).
* **C42** CSV output is rectangular and complete — *partial* (PropsLaws.v, PropsTools.v): `C42_characters`, `C42_text_law`, `C42_table`, `C42_limits`, `C42_columns`, `C42_rectangular`, `C42_printed_partial`, `C42_quote_refuted`, `C42_text_refuted`, `C42_no_time`. Refuted as stated: delimiters in texts are not quoted, and texts with bytes above 127 raise ValueError. Proved otherwise: header, rows, columns and printed values, and reading back by splitting. C42_text_law: ValueError exactly if a text in the window has a byte above 127 before its first NUL (C42_characters).
* **C43** The GPS dump is split losslessly — *partial* (PropsExact.v, PropsTools.v): `C43_law`, `C43_streams_partial`, `C43_complete`, `C43_none`, `C43_second_refuted`, `C43_length_refuted`. Refuted for further gps_dump datasets (not written) and lengths beyond the data fields (KeyError). Proved: the streams of the first dataset. C43_law: KeyError exactly if a row of the wanted instance is longer than the data fields.
* **C44** Parameter listing is complete and ordered — *partial* (PropsTools.v): `C44_initial_partial`, `C44_defaults`, `C44_no_defaults`, `C44_default_name`, `C44_changed_refuted`, `C44_timestamps_refuted`. Proved: every initial or default parameter once, sorted, with its later values. Refuted: parameters set only during the log are missing, and with timestamps --initial/--default do not leave out the changes.
* **C45** Message listing merges logs and events by time — *partial* (PropsExact.v, PropsTools.v): `C45_empty`, `C45_merge_partial`, `C45_unknown`, `C45_cut`, `C45_no_events`, `C45_other`, `C45_clock`, `C45_lines`, `C45_empty_refuted`, `C45_order_refuted`, `C45_clock_refuted`. Proved for PX4 logs without empty messages and for times up to 2^53. Refuted: an empty message raises IndexError, logs of other systems are not sorted, very late times show a wrong second. C45_empty: a PX4 log can be listed exactly if it has no empty message. C45_cut: a sample that lacks a value ends the list of events and keeps those before it.
* **C46** KML track thinning and mode colouring — *proved* (PropsTools.v): `C46_track`, `C46_thinned`, `C46_thinned_unique`, `C46_no_modes`, `C46_backwards_refuted`. For timestamps that do not decrease; C46_backwards_refuted shows why. Coordinates are not modelled, samples are identified by their index.
* **C47** Each dataset becomes its own ROS topic / CSV file — *partial* (PropsExact.v, PropsTools.v): `C47_csv_exact`, `C47_ros2_exact`, `C47_csv_partial`, `C47_csv_form`, `C47_files`, `C47_ros2_partial`, `C47_csv_refuted`, `C47_ros2_refuted`. Refuted as stated by a/b and a_b, and by a (two instances) and a_1. Proved for names without a slash (CSV) and without an instance suffix (ROS 2). Exactly when two datasets share a file or topic: C47_csv_exact, C47_ros2_exact.
* **C48** String-error mode of a load concerns only that load — *partial* (PropsTools.v): `C48_alone_partial`, `C48_law`, `C48_exact`, `C48_refuted`. Refuted: the setting is a class attribute. Proved: a load is as on its own if loads that begin while it runs have the same setting. Steps are whole messages. C48_law: whatever the settings, each step of a load runs with the setting of the load that began last before it; C48_exact: a load is as on its own, whatever its steps do, exactly if no step of it runs with another setting than its own.
* **C49** Roll, pitch and yaw are those of the quaternion — *proved* (PropsAttitude.v): `C49_rebuild`, `C49_ranges`, `C49_unique`, `C49_sign`, `C49_lock_refuted`, `C49_rows`, `C49_length`, `C49_others`, `C49_missing`, `C49_default`. In exact real arithmetic (columns are float32 in the code; rounding is not modelled). In gimbal lock, which the property excludes, the angles can be those of another rotation: C49_lock_refuted. Also: which tables get which columns, when the call raises KeyError, and that nothing else changes. Uses the standard library's axioms of the real numbers, functional extensionality and excluded middle.
* **C50** PX4 helpers decide by the initial parameters — *proved* (PropsTools.v): `C50_only`, `C50_mav_type`, `C50_fixed_wing`, `C50_estimator`, `C50_rc`.
* **C51** Every processed message is a frame of the file — *proved* (PropsRead.v): `C51_every_load_has_a_trace`, `C51_trace_unique`, `C51_definitions_in_order`, `C51_framed`. A trace is the walk of C70 and so unique (C51_trace_unique): 'there are messages such that' speaks of one definite list.
* **C52** A well-formed log loads with exactly its documented contents — *proved* (PropsRead.v): `C52_well_formed`.
* **C53** Migrating keeps the stored logs — *proved* (PropsMigrate.v): `C53_kept`, `C53_times`. Times must be whole numbers, and are cut off at 64 bits; those up to 2^53 are exact (C53_times).
* **C54** Several processes on one database — *partial* (PropsConc.v): `C54_statements`, `C54_map`, `C54_hashes`, `C54_race`, `C54_race_refuted`, `C54_apart`, `C54_stored`, `C54_atomic`, `C54_torn_partial`, `C54_torn_order`, `C54_torn_law`, `C54_torn_possible`, `C54_torn_refuted`, `C54_type_refuted`. Each SELECT of an open sees what is committed when it runs (sqlite3 does not open a transaction for SELECTs); a save is a look for the hash at any earlier time and one transaction. Map, hashes and keys: every schedule. Opening while others save and delete other logs, or save this one, gives the log as before or as after. Missing: a log deleted while it is opened can come back without an exception and without some of its parts (C54_torn_refuted); what is then left is bounded by C54_torn_partial and read in order (C54_torn_order: behind a part that is not whole, all are empty). C54_torn_law: exactly, every open is one with a single deletion before some statement, and each of these can happen (C54_torn_possible). A save that loses a race raises IntegrityError, not KeyError.
* **C55** The report of ulog_info — *proved* (PropsInfo.v, PropsShown.v): `C55_report`, `C55_printed`, `C55_loaded`, `C55_bytes`, `C55_message`, `C55_hex`, `C55_not_found`, `C55_printed_refuted`, `C55_numbers_refuted`, `C55_order_refuted`, `C55_agrees`, `C55_failed`, `C55_message_failed`. str() of info values is abstract. The two conditions are needed (C55_printed_refuted): a software version stored as text gives TypeError, a topic without timestamp, of which the reader keeps one sample, gives KeyError. -m raises TypeError for entries that hold numbers (C55_numbers_refuted), and rows are in the order of the text of name and instance, so instance 10 comes before 2 (C55_order_refuted).
* **C56** From the database back to a file — *proved* (PropsFile.v): `C56_same_file`, `C56_round_trip`, `C56_lazy`, `C56_from_file_refuted`. Equality of the whole outcome, exceptions included (a bool comes back from the database as an int, which is packed alike). Finding: an object made from a file refuses to be written unless lazy=False is passed (C56_from_file_refuted).
* **C57** == between logs of files and of databases — *proved* (PropsEq.v): `C57_mixed`, `C57_database`, `C57_symmetric`, `C57_saved`, `C57_opened_twice`, `C57_saver`, `C57_saver_refuted`, `C57_handles_refuted`. Logs without subscription table (an attribute of the reader that the database does not store) on both sides, dicts with distinct keys. Findings: the object that saved a log with the default lazy=True is not == to the one opened with lazy=False (C57_saver_refuted), and objects opened through two handles of one file never are (C57_handles_refuted).
* **C58** The ROS 2 bag of a log — *proved* (PropsBag.v): `C58_bag`, `C58_type`, `C58_type_unique`, `C58_index`, `C58_times`, `C58_no_time`, `C58_time_refuted`, `C58_float_time_refuted`, `C58_longer_refuted`. px4_msgs, the conversion at assignment and the behaviour of numpy (1 or 2) are parameters; times up to 2^63 ns (numpy 2) or 2^53 ns (numpy 1). Findings: larger times are wrong without notice (C58_time_refuted, C58_float_time_refuted); an array longer than that of the class ends the whole conversion with IndexError (C58_longer_refuted).
* **C59** The KML map of a log — *proved* (PropsMap.v): `C59_map`, `C59_one`, `C59_command`, `C59_value`, `C59_absent`, `C59_palette`, `C59_distinct`, `C59_red`, `C59_mode_refuted`, `C59_topics_refuted`, `C59_list_refuted`, `C59_colours_refuted`, `C59_camera_refuted`. Coordinates are exact terms; the rounding of floats and the KML text are not modelled. Timestamps do not decrease. Findings: modes from 18 on, several topics with one colour function, fewer colours than topics, unscaled camera triggers.
* **C60** Texts of formats, infos and parameters — *proved* (PropsText.v): `C60_format`, `C60_format_refused`, `C60_format_unique`, `C60_info`, `C60_open_refuted`, `C60_negative_refuted`, `C60_colon_refuted`. Digits and blanks outside ASCII and the digit limit of int() are not modelled. Findings: unclosed brackets, negative sizes, second colon.
* **C61** What a cut log shows is an initial part of the log — *partial* (PropsCut.v): `C61_cut_partial`, `C61_written`, `C61_cut_definitions`, `C61_cut_flags`, `C61_text_refuted`, `C61_first_refuted`, `C61_reused_refuted`, `C61_first_message`. Proved for cuts after the first message of the data section and logs without re-used message ids; exact law for cuts inside the definitions. Refuted: a cut definition text is read as a shorter one without any sign, a cut first data message makes definitions be read again as data (or OSError), a re-used message id makes the complete log lack samples of the cut one.
* **C62** What is in the file when write_ulog returns or raises — *proved* (PropsWriting.v): `C62_complete`, `C62_failed`, `C62_failed_head`, `C62_kept_refuted`. Opening and writing to the file succeed. Finding (C62_kept_refuted): a failed write destroys the old contents of the file, and what is there instead loads without any sign of damage.
* **C63** Event definitions over the life of a PX4Events object — *partial* (PropsEvents.v): `C63_own`, `C63_own_damaged`, `C63_own_malformed`, `C63_default`, `C63_no_events`, `C63_downloads`, `C63_history_partial`, `C63_main`, `C63_offline`, `C63_empty_refuted`. The event parser, json and lzma are arbitrary functions. Refuted: definitions that cannot be loaded leave an empty parser as default, so that all later logs show unknown events and nothing is downloaded again. Independence of the history is proved if the downloaded definitions are the same and can be loaded.
* **C64** What a failing conversion leaves in its files — *proved* (PropsPartial.v): `C64_complete`, `C64_failed`, `C64_limit`, `C64_text`, `C64_no_time`, `C64_header_refuted`, `C64_gps_complete`, `C64_gps`. C64_header_refuted: a failed conversion cannot always be told from its files (a header-only file is also the result of an empty time range). Opening and writing the files is taken to succeed.
* **C65** Exactly which logs can be saved to a database — *proved* (PropsRefused.v, PropsStorable.v): `C65_exceptions`, `C65_causes`, `C65_exact`, `C65_saved`, `C65_json`, `C65_json_plain`, `C65_refused`. C65_exact: the equivalence without JSON copies; C65_json: the equivalence with them, C65_json_plain a simpler sufficient condition; C65_saved for any failing statement; C65_refused. C65_exceptions: every exception and what it says about the log (SpecRefused.v), C65_causes: what it says is a reason.
* **C66** Texts of loaded logs can be encoded; which logs from files can be saved — *proved* (PropsLoaded.v, PropsRefused.v): `C66_texts`, `C66_storable`, `C66_save`, `C66_unnamed_refuted`, `C66_exceptions`. C66_unnamed_refuted: a field without a name is loaded (numpy calls its column f1), but such a log cannot be saved (KeyError).
* **C67** Exactly which logs can be written as a file — *proved* (PropsWritable.v): `C67_exact`, `C67_loaded`, `C67_every_file_refuted`, `C67_exceptions`, `C67_loaded_exceptions`, `C67_short_column`. C67_every_file_refuted: files with an information message of type float[1], a default with the fifth bit, a 64-bit parameter, or two types under one key of multiple messages are loaded without complaint, but writing the log raises KeyError, struct.error or TypeError. The hypothesis covered leaves out what the model does not define: timestamps that are floats.
* **C68** The command-line programs: exit status and files — *proved* (PropsCommand.v, PropsPrinted.v, PropsScreen.v, PropsShown.v): `C68_csv_files`, `C68_csv_log`, `C68_gps_files`, `C68_gps_log`, `C68_one_output`, `C68_bad_log`, `C68_csv_status`, `C68_csv_selection`, `C68_dir_refuted`, `C68_gps_status`, `C68_gps_dump`, `C68_params_file`, `C68_params_initial`, `C68_no_topics`, `C68_times_refuted`, `C68_format_refuted`, `C68_overwrite_refuted`, `C68_messages`, `C68_info_text`, `C68_info_report`, `C68_info_message`, `C68_messages_text`, `C68_lines_back`, `C68_default`, `C68_default_word`, `C68_kml_map`, `C68_kml_fail`, `C68_map_input`, `C68_csv_screen`, `C68_gps_screen`, `C68_gps_quiet`, `C68_info_screen`, `C68_info_lines`. Programs over a disk (files and directories) with an arbitrary loader; end-to-end theorems take the reader of ModelRead. Findings: -i -t of ulog_params lists all changes with the start time (C68_times_refuted, explained by C68_no_topics), an unknown format empties the output file with status 0 (C68_format_refuted), the output directory of ulog2csv is made before the log is opened (C68_dir_refuted), an output file equal to the log replaces it (C68_overwrite_refuted). C68_info_text, C68_messages_text: printed lines; C68_default: the words of -d; C68_kml_map: the map file. C68_csv_screen, C68_gps_screen: the progress lines against the files (ModelScreen.v).
* **C69** ulog_migratedb runs the scripts of the given directory, and -n shows exactly those — *proved* (PropsScripts.v): `C69_scripts`, `C69_not_dir`, `C69_refused`, `C69_noop`, `C69_run`, `C69_field`, `C69_names`, `C69_template`, `C69_stray`, `C69_noop_refuted`, `C69_braces_refuted`, `C69_template_refuted`. C69_scripts: outcome and database file equal those of migrate_db (C37, C38, C40) on the scripts lying under the names pyulog.1.sql to pyulog.5.sql of the directory. C69_refused: a first script that is not delimited gives ValueError, the three head lines and an unchanged database. C69_not_dir: nothing happens without the directory. C69_noop: the exact lines of a dry run. C69_run: a run names a prefix of the scripts of the dry run, all if it succeeds. C69_names: with doubled braces or {migration_id} in the name of the directory, the scripts that are read are those named by the text with single braces and the number in it. C69_stray: a single brace gives ValueError. Findings: the name of the directory is a part of a format string. C69_field: with a field {x} in the name, KeyError or IndexError whatever the directory holds (C69_braces_refuted); C69_template: with {migration_id} the scripts of other directories are executed (C69_template_refuted); C69_noop_refuted: with -n a missing database is created empty and refused afterwards. How SQLite splits a text into statements is an arbitrary function, so C69_scripts assumes for each accepted script what its statements are; fields with an attribute, an index, a conversion or a format in the directory's name are not modelled.
* **C70** Exactly which messages of any file are read — *proved* (PropsWalk.v): `C70_law`, `C70_walk`, `C70_one_result`, `C70_trace`. C70_law is an equivalence over all files; C70_walk: existence and uniqueness of the walk of a section; C70_trace: the messages a loaded log consists of are those of the walk, and C51, C09, C10, C12-C14, C16, C18, C55 speak of the same walk.
* **C71** Damage followed by a sync sequence costs only itself — *proved* (PropsWalk.v): `C71_damage`, `C71_appended_refuted`. C71_damage. Finding (C71_appended_refuted): with appended data the same is false; resuming inside a swallowing message, the reader counts that message's whole size, so that the section seems to end early and its last messages are lost.
* **C72** JSON copies of the stored values — *proved* (PropsJson.v): `C72_law`, `C72_object`, `C72_save`, `C72_save_refused`, `C72_told`, `C72_distinct_refuted`, `C72_null_refuted`. repr() of finite floats is an arbitrary function with JSON numbers as values (json_number, RFC 8259, 6). C72_law: when the text is JSON; C72_object: its only reading; C72_save, C72_save_refused: what save does; C72_told: what the text determines. C72_distinct_refuted, C72_null_refuted: repeated timestamps, NaN and infinity lose values. Timestamps of a float type are left out.
* **C73** ulog2ros2bag as a program — *partial* (PropsRos.v): `C73_version_partial`, `C73_version_law`, `C73_version_refuted`, `C73_written`, `C73_agrees`, `C73_no_time`, `C73_left`, `C73_wrong_version`, `C73_name`, `C73_selection`, `C73_no_bag`, `C73_unavailable_refuted`, `C73_verbose_refuted`. Refuted as stated: versions are compared as texts, so the arguments are wrong exactly for 0.3.x-0.9.x, 0.100.x-0.249.x, 0.1000.x-0.2499.x and so on (id), and for 0.4.x-0.9.x, 0.100.x-0.319.x, 0.1000.x-0.3199.x and so on (sequence number) (C73_version_law, for every minor number), and the run then ends at the first topic (C73_wrong_version); proved for all versions with a >= 1, b <= 2 or 10 <= b <= 99. Without ROS the status is 0 and there is no bag (C73_unavailable_refuted); -v with a text as software version ends with an empty bag (C73_verbose_refuted). Missing: what serialize_message and the storage do with a message.
* **C74** Logs in file objects — *proved* (PropsHandle.v): `C74_place`, `C74_before`, `C74_closed`, `C74_write`, `C74_write_failed`, `C74_write_closed`, `C74_round_trip`, `C74_behind_refuted`, `C74_appended_refuted`, `C74_back_refuted`. Objects up to 2^50 bytes, logs up to 2^40. Findings: writing over a longer log leaves its end, which is loaded as part of the new one; offsets of appended data count from the start of the object, so that an appended log inside another file loses its data; a cut log behind another one loads the messages of that one without a sign.
* **C75** What the bytes of a log stand for — *proved* (PropsNumber.v): `C75_text`, `C75_text_total`, `C75_text_valid`, `C75_text_written`, `C75_int`, `C75_int_written`, `C75_float`, `C75_float_written`, `C75_double_written`, `C75_int_as_float`, `C75_info`, `C75_element`, `C75_samples`. SpecNumber.v defines the encodings without the readers: integers by weights and residues, IEEE 754 by sign, exponent and fraction, UTF-8 by the table of Unicode. That CPython's struct, float and codec agree with these standards is trusted.
* **C76** file_corruption is set exactly for the listed reasons — *proved* (PropsFlag.v): `C76_flag`, `C76_walk`, `C76_once`, `C76_header_only`, `C76_header_first`. The flag and the warned ids of every log that loads, as an equivalence with what lies on the (unique, C70) walk through the file. The text of the warning is not modelled.

## Trusted base

**Kernel.**  Coq 8.16.1's kernel (`coqc`, rechecked by `coqchk`), including its conversion with the VM
(`vm_compute` is used in examples and counterexamples only; `coqchk` redoes it without the VM).

**Axioms.**  `Audit.v` prints the assumptions of every property theorem.  All are "Closed under the global
context" except those of `PropsAttitude.v` (C49), which use the standard library's real numbers:

* `ClassicalDedekindReals.sig_not_dec`, `ClassicalDedekindReals.sig_forall_dec`
* `FunctionalExtensionality.functional_extensionality_dep`
* `Classical_Prop.classic`

`coqchk` works on whole files and additionally lists, for the standard library modules that are loaded, the
opaque fields of `Coq.Reals.Rdefinitions.RbaseSymbolsImpl` and `RinvImpl` and of `Coq.ssr.ssrunder.Under_rel`
(standard library modules sealed by a signature; no theorem here depends on the latter).
There are no axioms, parameters, functors or module types of our own.

**The model is the code.**  The correspondence between `/repo` and `Model*.v` is by reading: each definition
cites the file and lines it models.  Nothing was executed.

**Python runtime.**  These files state what CPython does and are part of the trusted base:

* `Base.v`: exceptions as values, slicing, indexing with negative numbers.
* `Dict.v`: dicts are association lists in insertion order, `==` on dicts ignores the order.
* `Utf8.v`: the strict and the `errors='ignore'` UTF-8 decoder of CPython, and the encoder.
* `PyStr.v`: `split`, `strip`, `rsplit`, `int()`, `str()` of integers.  White space and digits are ASCII.
* `PyFloat.v`: float64/float32 as bit patterns, comparison, addition, multiplication and division of
  integers rounded to nearest even, widening and narrowing conversions.
* `Struct.v`: `struct.pack`/`unpack` with `<`, `numpy.frombuffer` of one record.
* `PySort.v`: `list.sort` and `sorted` are stable insertion sorts by key.

**SQLite.**  `Sql.v` models tables as lists of rows with a rowid, column affinity, primary, foreign and unique
keys, `ON DELETE CASCADE`, `AUTOINCREMENT`, transactions with rollback, and statement failures.
`Schema5.v` and `ModelSchema.v` are the five scripts under `pyulog/sql`.  SQLite's file format, its own
recovery after a crash (assumed: a transaction is applied in whole or not at all) and locks that time out
are not modelled.  With several connections (C54) transactions that write are one after the other, and each
SELECT sees what is committed when it runs: Python's `sqlite3` begins a transaction only before statements that write.

**Reals.**  C49 is about exact real numbers; numpy computes in float32.

## What is modelled and what is not

| source | modelled | not modelled |
|---|---|---|
| `core.py` | everything from `__init__` to `get_version_info_str`: reading (header, flags, definitions, data, sync search, corruption checks, filters, `parse_header_only`), all message classes, properties, `get_dataset`, `list_value_changes`, comparison, `write_ulog`, file objects with their place and whether they are closed (`ModelHandle.v`) | printing and `_debug` output, `parse_string` on Python 2, memory exhaustion, reading and writing errors of the file system |
| `db.py` | `exists_in_db`, `primary_key_from_sha256sum`, `calc_sha256sum` (SHA-256 is an arbitrary function), `__init__`, `load`, `get_dataset` with lazy loading and caching, `save`, `delete`, the texts of `append_json` (`ModelJson.v`), `write_ulog`, comparison through `ULog.__eq__` | repr() of floats in the text of `append_json`, and what SQLite's json() stores of it (it only leaves out blanks), `get_db_handle` (foreign keys are always on), `database is locked` errors other than as a failing statement |
| `sql/*.sql` | all five scripts: the tables, keys and data changes | indices (no observable effect) |
| `migrate_db.py` | `_read_db_schema_version`, `_read_migration_file` with the names, texts and line ends of the scripts, `migrate_db` with failures, crash points at every statement and printed lines | parsing of the arguments, the splitting of a text into statements (an arbitrary function), `:memory:` |
| `ulog2csv.py` | `convert_ulog2csv`: window, header, rows, text columns, file names; the files after an exception (`ModelPartial.v`) | option parsing, `os.path` beyond base name and extension |
| `extract_message.py` | `extract_message` | |
| `extract_gps_dump.py` | the stream extraction | option parsing, directory checks |
| `params.py`, `messages.py` | the listings for all formats and options | option parsing |
| `px4.py` | `get_mav_type`, `get_estimator`, `add_roll_pitch_yaw`, `get_configured_rc_input_names` | float32 rounding |
| `px4_events.py` | `get_logged_events` with an arbitrary event parser (`ModelTools.v`), the choice, caching and download of definitions over histories of logs (`ModelEvents.v`) | `libevents_parse` (an external repository, absent here), json, lzma and urllib, which are arbitrary functions |
| `ulog2kml.py` | which samples are drawn, in which segment and flight mode (`ModelTools.v`); coordinates as terms, names, colours, styles, several topics, camera triggers, the defaults of the command line (`ModelKml.v`) | float rounding of the coordinates, simplekml and the KML text |
| `ulog2ros2bag.py` | topic names, message types with their 24 regular expressions, choice and verification of topics, conversion of values and times, the messages and counts (`ModelBag.v`); the program with its options, the choice of the interface by the version, the name and storage of the bag, and the bag that an exception leaves (`ModelRos.v`) | argparse, serialisation, `pathlib` beyond the last part of a path, what `-v` prints; px4_msgs and the assignment to its fields are parameters, `str.title`, `\w` and `\d` outside ASCII, too |
| `info.py` | `show_info` and `-m`: every printed line, also before an exception (`ModelShown.v`) | option parsing, `str()` of values |
| `main()` of `ulog2csv`, `extract_gps_dump`, `params`, `messages`, `info`, `ulog2kml` | options to load arguments, file names, output files and directories, exit status (`ModelCommand.v`), the progress lines of `ulog2csv` and `extract_gps_dump` (`ModelScreen.v`), what `info` prints before an exception (`ModelShown.v`) | argparse, links and other aliases of paths |

Two threads (C48): steps are whole messages, and only the class attribute is shared.

## Findings

Each `_refuted` theorem is a concrete input on which the modelled code does not do what the property says.

* C03: a 19-byte file makes the constructor loop for ever: in the definition section, a corrupt header that
  announces more bytes than are left makes the reader seek back to where it was.
* C03: the same bytes (header and a corrupt message header announcing 65535 bytes) raise OSError when read from
  an opened file and loop for ever when read from an `io.BytesIO` (`C03_refused_ex`, `C03_memory_ex`).
* C04, C21: a data message cut short before any other, or an info message whose value has the wrong size,
  ends loading with an exception or silently ends the section.
* C07: after a corrupt header that announces more bytes than the file has, nothing more is recovered.
* C09: with an id used for two topics, or a sample without a timestamp, a filtered load differs.
* C15: bit 2 of a default parameter's types lands under type 3.
* C17: payloads with trailing padding bytes are dropped and the file is flagged.
* C20: a log with appended sections is not read as one section.
* C24: writing twice reorders tagged messages once.
* C25: bools other than 0 and 1, signalling NaNs and chars above 127 are not written back as they were read.
* C28: two loads of the same bytes compare different if an info value or parameter is NaN.
* C29: the damage flag, formats without fields and the types of numbers in info lists are lost in the database;
  values of 2^63 and more, and two datasets of one name and instance, cannot be saved.
* C32: after a failed save of a known file the object has a key, with which `delete()` removes another log.
* C34: loading from an open file through `DatabaseULog` always raises TypeError.
* C35: a lazily opened log that is deleted and saved again has lost its samples.
* C36: a second `load()` doubles the lists.
* C37: a version 1 database that holds a log cannot be migrated to version 2.
* C38, C39, C40: a failed migration of a missing file leaves a file that is refused later; a crash between a
  script's COMMIT and `PRAGMA user_version` leaves the version behind; even a dry run creates a missing file.
* C41: a time limit after the last sample raises IndexError, an end of 0 is no limit.
* C42: delimiters in texts are not quoted, texts with bytes above 127 raise ValueError.
* C43: only the first gps_dump dataset is written; lengths beyond the data fields raise KeyError.
* C44: parameters set only during the log are not listed; `--initial` with timestamps lists changes.
* C45: an empty message raises IndexError; logs of other systems are not sorted; late times are off by one.
* C46: timestamps that go backwards break the minimum interval.
* C47: two topics can be written under one file or topic name.
* C48: a load changes how a concurrent load decodes texts.
* C49: in gimbal lock the angles can be those of another rotation.
* C54: a log deleted by another process while it is opened can come back incomplete without an exception; a
  deletion right after the existence check gives TypeError; a save that loses a race raises IntegrityError.
* C55: ulog_info raises on a software version stored as text and on topics without timestamp; `-m` raises on numbers;
  instance 10 is listed before instance 2.
* C56: a `DatabaseULog` made from a file cannot be written unless `lazy=False` is passed, as `lazy=True` is the default.
* C57: `DatabaseULog.__eq__` compares the database handle and the `lazy` argument, so the object that saved a log and the one read back are different, and so are two opens of one key through two handles.
* C58: `ulog2ros2bag` multiplies numpy timestamps by 1000: with numpy 2 the product wraps at 2^64, with numpy 1 it is a rounded float, in both cases without notice. An array field that is longer in the log than in the class raises `IndexError` instead of leaving the topic out.
* C59: with the default colours a flight mode of 18 or more ends `ulog2kml` with `IndexError`; a list of topics with a single colour function (the default) raises `TypeError`; topics beyond the list of colours are silently left out; camera triggers with integer positions are not scaled to degrees as tracks are.
* C42, C58: a topic without a `timestamp` field ends `ulog2csv` and `ulog2ros2bag` with `KeyError`.
* C60: a field type whose bracket is not closed (`uint8_t[12 a`) is read with its last character dropped (size 1); a negative array size is accepted and gives a field without elements; what follows a second colon in a format is lost without an error.
* C61: a file that ends inside a definition is read with the definition cut short: a text entry loses its end without any sign, a number raises `struct.error`. A file that ends inside the first message of the data section makes the reader seek back by the announced size: it may read definitions again as data (a parameter turns up as changed), raise `OSError`, or start over at the file header (BytesIO). When a message id is subscribed again the samples before are dropped, so a cut log can show samples that the complete one does not.
* C62: a write_ulog(name) that raises (for example for a char sample above 127, C25) has emptied the file before; the
  definitions and subscriptions that are in it then load as a log without samples, not flagged as damaged.
* C63: event definitions that were downloaded but cannot be loaded leave an empty parser behind; from then on all logs of
  the same PX4Events object are shown with unknown events, and no download is tried again.
* C64: a conversion to CSV that raises leaves files behind that may look whole: with a time limit beyond the samples of a
  topic, that topic's file has only its header, as for an empty time range, and the later topics have none.
* C65: a log with an unsigned 64-bit number from 2^63 on anywhere (a timestamp, an information value, a parameter) or with
  two datasets of the same name and instance cannot be saved; a NaN parameter can, but is stored as NULL (which the model does not read back).
* C59: a list of colours for a single topic raises `TypeError`, as a single colour function for a list of topics does.
* C66: a field without a name (`uint8_t ;`) is loaded under the name numpy gives its column (`f1`); saving such a log to a
  database raises `KeyError`.
* C67: logs that load cleanly but cannot be written: an information message of an array type other than char[ and uint8_t[
  (`KeyError`), a default parameter with one of the bits 4-7 (`struct.error`), a parameter beyond 32 bits (`struct.error`), multiple information messages of one key
  with different types (`TypeError`), a topic without timestamp (`KeyError`).
* C68: `ulog_params -i -t` lists every parameter change with the start time of the log, because `-i` loads no topic and so the time never
  advances; an unknown `--format` empties the output file and ends with status 0; `ulog2csv -o` makes the directory before it looks for the log;
  `ulog_params` with the log as output file replaces the log.
* C69: the directory given to `ulog_migratedb -s` is a part of a format string: with `{x}` in its name the program stops with KeyError although
  the scripts are there, and with `{migration_id}` it executes the scripts of other directories.  With `-n` a missing database is created.
* C39: a migration from version 2 or 3 that is killed between COMMIT and PRAGMA user_version leaves a database that no later run can migrate,
  whatever it holds (`C39_stuck`); from version 4 the next run completes it (`C39_resumed`).
* C71: with appended data, a plausible message of an unknown type around a sync sequence makes the reader lose the last messages of the section:
  it resumes behind the sequence but has counted the whole message.
* C72: the JSON copies hold one value per timestamp, and null for NaN and infinity: they do not determine the values.
* C73: `ulog2ros2bag` compares versions as texts: with rosbag2_py 0.3.x to 0.9.x (ROS 2 Foxy, Galactic) it passes an id to `TopicMetadata`, which does not take one, and
  stops with TypeError at the first topic.  Without ROS it ends with status 0.  With `-v` a software version that is stored as a text ends it with an empty bag.
* C74: `write_ulog` into a file object that holds a longer log leaves the end of that log, whose messages are loaded as part of the new one.  In a file
  object that does not stand at its start, the offsets of appended data count from the start of the object (the data is lost), and a log that is
  cut in its first data message loads the messages of the log before it, without a corruption flag.
