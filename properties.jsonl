{"id": "C01", "title": "UTF-8 text survives encode/decode", "statement": "Any text that can be stored in a log is read back unchanged: decoding the UTF-8 encoding of a string of valid code points gives the string back, in strict and in ignore mode; ignore mode never fails; when strict mode succeeds it agrees with ignore mode and re-encoding gives the original bytes.", "quantifier": "every string of valid Unicode scalar values and every byte string", "why_tests_cant": "The input space is all strings/byte strings, including every malformed sequence; samples only use ASCII.", "anchors": ["pyulog/core.py:_parse_string", "pyulog/core.py:ULog.parse_string", "pyulog/core.py:ULog._make_info_message_data"]}
{"id": "C02", "title": "Well-framed messages are delivered exactly once, in order", "statement": "For a file that is a valid 16-byte header followed by any sequence of complete framed messages of known types, ULog(file) processes exactly those messages, each once and in file order: the resulting object is the left-to-right fold of the per-message effect, with the definition section ending at the first subscription/logging/tagged-logging message.", "quantifier": "every sequence of messages, of any length, any payload contents and sizes up to 65535", "why_tests_cant": "Framing errors appear only for particular combinations of sizes and types; the number of sequences is unbounded.", "anchors": ["pyulog/core.py:ULog._read_file_definitions", "pyulog/core.py:ULog._read_file_data", "pyulog/core.py:ULog._load_file"]}
{"id": "C03", "title": "Loading always terminates", "statement": "ULog(file) returns or raises for every byte string given as a file; it never loops forever.", "quantifier": "every byte string, every filter, every string-error mode, file and in-memory handles", "why_tests_cant": "Non-termination cannot be observed by a finite test, and it needs a specific corrupt tail.", "anchors": ["pyulog/core.py:ULog._read_file_definitions", "pyulog/core.py:ULog._read_file_data", "pyulog/core.py:ULog._find_sync"]}
{"id": "C04", "title": "A log cut at any byte of its data section keeps every complete message", "statement": "If a well-formed log is cut at an arbitrary byte of the data section (power loss), loading the cut file succeeds and yields exactly what loading the file made of the messages complete before the cut yields, without a corruption flag.", "quantifier": "every well-formed log and every cut position in its data section (crash point)", "why_tests_cant": "There is one cut point per byte of every possible log.", "anchors": ["pyulog/core.py:ULog._read_file_data"]}
{"id": "C05", "title": "A file is rejected as not-a-ULog exactly when its header is bad", "statement": "ULog(file) raises TypeError exactly when the file has fewer than 16 bytes or its first 7 bytes are not the ULog magic; file version and start timestamp are bytes 7 and 8..15 little endian.", "quantifier": "every byte string", "why_tests_cant": "Ranges over all files including all the ones which fail later.", "anchors": ["pyulog/core.py:ULog._read_file_header"]}
{"id": "C06", "title": "Sync search is independent of chunking", "statement": "Searching for the sync sequence finds it if and only if it occurs anywhere in the rest of the file, positions the reader just after its first occurrence, and leaves the position unchanged otherwise, wherever the 512-byte chunk boundaries fall.", "quantifier": "every file content and every start position", "why_tests_cant": "Boundary straddling depends on position modulo the chunk step; tests do not contain a straddling sequence.", "anchors": ["pyulog/core.py:ULog._find_sync"]}
{"id": "C07", "title": "Recovery after a corrupt packet", "statement": "When the data section reader meets a corrupt packet header (unknown type with type 0, size 0 or size > 10000), file_corruption becomes True and reading resumes right after the next sync sequence if one follows, and otherwise one byte further on; an unknown but plausible message is skipped as a whole unless its payload contains a sync sequence, after which reading resumes.", "quantifier": "every file content, position and reader state", "why_tests_cant": "Corruption patterns are unbounded.", "anchors": ["pyulog/core.py:ULog._check_packet_corruption", "pyulog/core.py:ULog._find_sync", "pyulog/core.py:ULog._read_file_data"]}
{"id": "C08", "title": "The corruption flag and collected data never go backwards", "statement": "While a file is read, file_corruption once True stays True, last_timestamp never decreases, logged messages, dropouts and changed parameters only grow by appending, and no dataset is ever removed from data_list.", "quantifier": "every file and every point of its processing", "why_tests_cant": "An invariant over every reachable reader state.", "anchors": ["pyulog/core.py:ULog._read_file_data", "pyulog/core.py:ULog._read_file_definitions"]}
{"id": "C09", "title": "Filtering topics gives the same datasets as loading everything and discarding", "statement": "Loading with message_name_filter_list gives exactly the datasets of the unfiltered load whose name is in the list, with the same contents and order, and the same info, parameters (names and values), formats and log messages.", "quantifier": "every file whose unfiltered load reads to the end and does not reuse a message id, every filter list", "why_tests_cant": "Quantifies over all pairs (file, filter).", "anchors": ["pyulog/core.py:ULog._read_file_data", "pyulog/core.py:ULog._MessageData.initialize"]}
{"id": "C10", "title": "Dataset rows are exactly the logged samples", "statement": "In a loaded log each dataset has, for each of its fields, one value per accepted data message of its message id since its last subscription, in file order; the value is the little-endian decoding of the bytes at the field offset of that message. All columns have the same length, which is at least one.", "quantifier": "every file that loads", "why_tests_cant": "Ranges over every interleaving of topics and instances and every format.", "anchors": ["pyulog/core.py:ULog.Data", "pyulog/core.py:ULog._MessageData.initialize", "pyulog/core.py:ULog._MessageAddLogged"]}
{"id": "C11", "title": "data_list is sorted and complete", "statement": "data_list is sorted by (name, multi_id), contains a dataset for exactly the subscriptions that received data, and get_dataset(name, id) returns a dataset with that name and id, raising IndexError exactly when none exists.", "quantifier": "every file that loads, every name and instance", "why_tests_cant": "Needs all subscription orders and id assignments.", "anchors": ["pyulog/core.py:ULog._read_file_data", "pyulog/core.py:ULog.get_dataset"]}
{"id": "C12", "title": "Timestamps of the log, dropouts and parameter changes", "statement": "last_timestamp is the maximum of start_timestamp and the timestamps of all accepted data messages; each dropout and each changed parameter carries the value last_timestamp had when its message was read; the timestamps in dropouts and in changed_parameters are non-decreasing.", "quantifier": "every file that loads", "why_tests_cant": "Depends on the whole history before each message.", "anchors": ["pyulog/core.py:ULog._read_file_data", "pyulog/core.py:ULog.MessageDropout"]}
{"id": "C13", "title": "Last info message wins and types stay in step", "statement": "msg_info_dict maps each key to the value and type of the last info message with that key, every key in msg_info_dict has a type, and parameter messages before the first subscription/log message are initial parameters while later ones are appended to changed_parameters in order.", "quantifier": "every sequence of messages", "why_tests_cant": "Unbounded histories of overwrites.", "anchors": ["pyulog/core.py:ULog._read_file_definitions", "pyulog/core.py:ULog._read_file_data"]}
{"id": "C14", "title": "Info-multiple messages are grouped correctly", "statement": "For each key the concatenation of the lists in msg_info_multiple_dict is the sequence of values of its info-multiple messages in file order, and a new list starts exactly at each message that is not flagged as continued (and at the first one); no list is empty.", "quantifier": "every sequence of info-multiple messages", "why_tests_cant": "Unbounded message sequences.", "anchors": ["pyulog/core.py:ULog._add_message_info_multiple"]}
{"id": "C15", "title": "Default parameters land under the default types whose bits are set", "statement": "After a parameter-default message with type bits B for key k and value v, get_default_parameters(t)[k] = v for exactly the t with bit t set in B; other entries are unchanged.", "quantifier": "every bit field, key, value and previous contents", "why_tests_cant": "The bit loop mixes bit values and bit indices; only bits 0 and 1 occur in test logs.", "anchors": ["pyulog/core.py:ULog._add_parameter_default", "pyulog/core.py:ULog.get_default_parameters"]}
{"id": "C16", "title": "Nested formats are flattened faithfully", "statement": "The flattened fields of a subscription are the depth-first, left-to-right expansion of its format: names are dotted/indexed paths, the order is the order of the bytes in the message and the byte size of the flattened record is the recursively computed size of the format (before trailing padding is removed).", "quantifier": "every set of format definitions (nesting, arrays) that resolves, every topic", "why_tests_cant": "Format definitions are user data of unbounded depth and width.", "anchors": ["pyulog/core.py:ULog._MessageAddLogged._parse_nested_type", "pyulog/core.py:ULog.MessageFormat"]}
{"id": "C17", "title": "Trailing padding is tolerated", "statement": "Data messages are accepted both without the trailing _padding fields of their format and with them; the padding bytes are stripped.", "quantifier": "every format with trailing padding and every payload", "why_tests_cant": "No sample log carries trailing padding bytes.", "anchors": ["pyulog/core.py:ULog._MessageAddLogged", "pyulog/core.py:ULog._MessageData.initialize"]}
{"id": "C18", "title": "Header-only loading agrees with full loading", "statement": "With parse_header_only=True the object has exactly the formats, initial parameters, flags, version and start time of the full load, no datasets, and info/default-parameter entries of the full load restricted to the definition section.", "quantifier": "every file", "why_tests_cant": "Ranges over all files.", "anchors": ["pyulog/core.py:ULog._load_file"]}
{"id": "C19", "title": "Logs with unknown incompatible flags are refused", "statement": "If the flag-bits message sets any incompat bit other than bit 0 of byte 0, loading raises (ValueError for byte 0, NotImplementedError otherwise) and no ULog is produced; a log that loads has no such bit.", "quantifier": "every flag-bits message and every file that loads", "why_tests_cant": "2^64 flag values times all files.", "anchors": ["pyulog/core.py:ULog._read_file_definitions", "pyulog/core.py:ULog._MessageFlagBits"]}
{"id": "C20", "title": "Appended sections: the message cut before each offset is dropped and reading resumes at the offset", "statement": "For a log with appended data, each section is read only up to its offset: a message which extends past the offset is dropped, and reading resumes exactly at the offset, so the result equals reading the section messages followed by the appended messages.", "quantifier": "every well-formed log with appended sections and every cut of the message before an offset", "why_tests_cant": "Every crash point of the original log gives a different file.", "anchors": ["pyulog/core.py:ULog._load_file", "pyulog/core.py:ULog._read_file_data"]}
{"id": "C21", "title": "A malformed message does not hide the rest of the log", "statement": "A message of known type whose payload is malformed (for example an info message whose value has the wrong size) is either skipped or flagged; the well-formed messages after it are still loaded, or file_corruption is True.", "quantifier": "every malformed payload followed by any messages", "why_tests_cant": "Requires malformed payloads of every kind.", "anchors": ["pyulog/core.py:ULog._read_file_data"]}
{"id": "C22", "title": "write_ulog followed by ULog() reproduces the log", "statement": "For every log object whose contents fit the format (values match their types, per-topic timestamps non-decreasing, ASCII char fields, 0/1 bools, no signalling NaN, default types 0 and 1, unique topic instances and message ids, dropouts and parameter changes stamped with the start time or the time of a sample as the reader does, no corruption, unfiltered), write_ulog succeeds and loading its output yields an equal object except sync count, appended offsets, the appended-data flag and the order in which the tags of tagged messages are listed.", "quantifier": "every log object satisfying the stated conditions", "why_tests_cant": "The tests try five sample logs; logs of any size, order and content must round-trip.", "anchors": ["pyulog/core.py:ULog.write_ulog", "pyulog/core.py:ULog._write_data_section", "pyulog/core.py:ULog._load_file"]}
{"id": "C23", "title": "Files written by write_ulog are well formed", "statement": "Whatever the object, if write_ulog succeeds its output is a valid header followed by complete frames whose size fields match, it does not claim appended data, and all items of the data section are ordered by timestamp with ties kept in a fixed order.", "quantifier": "every log object for which write_ulog returns", "why_tests_cant": "All objects, including those loaded from corrupt logs.", "anchors": ["pyulog/core.py:ULog.write_ulog", "pyulog/core.py:ULog._write_flags", "pyulog/core.py:ULog._write_data_section"]}
{"id": "C24", "title": "Writing is stable", "statement": "Writing, loading and writing again produces byte-identical files.", "quantifier": "every log object satisfying the conditions of C22", "why_tests_cant": "As C22.", "anchors": ["pyulog/core.py:ULog.write_ulog"]}
{"id": "C25", "title": "write_ulog preserves every sample value", "statement": "Every field value of every sample is written as the bytes it was loaded from.", "quantifier": "every loaded log, every field type and value", "why_tests_cant": "Needs each byte value of bool and char fields.", "anchors": ["pyulog/core.py:ULog._make_data_items"]}
{"id": "C26", "title": "list_value_changes is the exact change list", "statement": "list_value_changes(f) returns, for the samples with non-zero timestamp, the first sample and exactly the samples whose value differs from the preceding one, in order; looking values up in it reproduces the series.", "quantifier": "every data series", "why_tests_cant": "All series of all lengths.", "anchors": ["pyulog/core.py:ULog.Data.list_value_changes"]}
{"id": "C27", "title": "Version info decodes the packed version", "statement": "get_version_info returns the four bytes of the packed version most significant first (None if absent); get_version_info_str returns None for development versions and otherwise v<major>.<minor>.<patch> with suffix (alpha), (beta), (RC) or none according to the type byte.", "quantifier": "every integer value of the version field", "why_tests_cant": "2^32 values times presence/absence.", "anchors": ["pyulog/core.py:ULog.get_version_info", "pyulog/core.py:ULog.get_version_info_str"]}
{"id": "C28", "title": "Comparing logs", "statement": "Two loads of the same bytes compare equal; comparison is symmetric and transitive on logs; logs differing in any dataset value, parameter, info or message compare different.", "quantifier": "every file and every pair/triple of logs", "why_tests_cant": "Needs all value kinds including NaN.", "anchors": ["pyulog/core.py:ULog.__eq__", "pyulog/core.py:ULog.Data.__eq__"]}
{"id": "C29", "title": "A log saved to the database loads back equal", "statement": "For a log whose contents fit the SQL schema, save() followed by constructing with the primary key and lazy=False gives an object that compares equal to the original log.", "quantifier": "every log object satisfying the stated storage conditions, every prior database content", "why_tests_cant": "Unbounded contents and prior database states.", "anchors": ["pyulog/db.py:DatabaseULog.save", "pyulog/db.py:DatabaseULog.load"]}
{"id": "C30", "title": "The database behaves like a map from keys to logs under any history", "statement": "After any sequence of save and delete operations each stored key maps to the log that was saved under it; saving or deleting one log changes no other; keys are never reused while stored.", "quantifier": "every sequence of successful and failing operations", "why_tests_cant": "Histories are unbounded.", "anchors": ["pyulog/db.py:DatabaseULog.save", "pyulog/db.py:DatabaseULog.delete", "pyulog/db.py:DatabaseULog.load"]}
{"id": "C31", "title": "delete removes exactly the rows of its log", "statement": "delete() removes the log row and every row that depends on it, directly or through datasets, formats and info lists, and no other row, so no orphan rows remain. It raises only a KeyError for an object that is not in the database, and otherwise what a failing statement raises.", "quantifier": "every reachable database state", "why_tests_cant": "The test compares file sizes only.", "anchors": ["pyulog/db.py:DatabaseULog.delete", "pyulog/sql/pyulog.2.sql"]}
{"id": "C32", "title": "A failed save leaves the database and the object as they were", "statement": "If save() raises, the database is unchanged and the object is still unsaved (primary_key as before), so later operations on it cannot touch other logs.", "quantifier": "every failure point of save", "why_tests_cant": "Every statement of save can fail.", "anchors": ["pyulog/db.py:DatabaseULog.save"]}
{"id": "C33", "title": "At most one entry per file hash", "statement": "In every reachable database state no two rows have the same SHA-256, save() of a duplicate raises KeyError without changing the database, and primary_key_from_sha256sum returns the key of the saved log.", "quantifier": "every history of operations", "why_tests_cant": "Unbounded histories.", "anchors": ["pyulog/db.py:DatabaseULog.save", "pyulog/db.py:DatabaseULog.primary_key_from_sha256sum"]}
{"id": "C34", "title": "The file hash is the hash of the whole file", "statement": "calc_sha256sum returns the SHA-256 of the full contents of a file given by name irrespective of block boundaries, and constructing a DatabaseULog from an open file object loads the same log as from its name.", "quantifier": "every file content and length", "why_tests_cant": "Block boundary cases; open-handle state.", "anchors": ["pyulog/db.py:DatabaseULog.calc_sha256sum", "pyulog/db.py:DatabaseULog.__init__"]}
{"id": "C35", "title": "Lazy loading and caching do not change what a dataset contains", "statement": "get_dataset on a lazily loaded log returns the same dataset as an eager load, whatever calls were made before and whatever the caching/lazy arguments of those calls; an unknown name or instance raises KeyError.", "quantifier": "every saved log and every sequence of get_dataset calls", "why_tests_cant": "Call histories are unbounded.", "anchors": ["pyulog/db.py:DatabaseULog.get_dataset", "pyulog/db.py:DatabaseULog.load"]}
{"id": "C36", "title": "load is repeatable", "statement": "Calling load() again on an object leaves it describing the same log.", "quantifier": "every stored log, every number of load calls", "why_tests_cant": "Histories of calls.", "anchors": ["pyulog/db.py:DatabaseULog.load"]}
{"id": "C37", "title": "Migrations run in order, once, up to the schema version", "statement": "A successful migrate_db applies exactly the scripts after the database version up to the schema version, in increasing order and each once, and leaves the database at the schema version; rerunning it applies nothing; a newer database is left alone.", "quantifier": "every starting version and schema version", "why_tests_cant": "All versions; tests use version 0 to 2.", "anchors": ["pyulog/migrate_db.py:migrate_db", "pyulog/migrate_db.py:_read_migration_file"]}
{"id": "C38", "title": "A failing or missing migration leaves the database at the last completed version", "statement": "If script k fails at any statement or its file is missing or ill-delimited, migrate_db raises, scripts before k are applied with the version set to k-1 and nothing of k is applied.", "quantifier": "every script sequence and every failing statement", "why_tests_cant": "All failure points.", "anchors": ["pyulog/migrate_db.py:migrate_db"]}
{"id": "C39", "title": "Schema and version agree after a crash", "statement": "If the process dies at any point during migrate_db, the database version still tells which scripts have been applied.", "quantifier": "every crash point", "why_tests_cant": "Crash points cannot be enumerated by unit tests.", "anchors": ["pyulog/migrate_db.py:_read_migration_file", "pyulog/migrate_db.py:migrate_db"]}
{"id": "C40", "title": "noop does not modify an existing database", "statement": "migrate_db(noop=True) executes no script and leaves version and contents of an existing database unchanged.", "quantifier": "every database state", "why_tests_cant": "All states.", "anchors": ["pyulog/migrate_db.py:migrate_db"]}
{"id": "C41", "title": "extract_message returns the samples in the time window", "statement": "extract_message returns one dictionary per sample, in order, of the requested topic (instance 0) with start <= timestamp < end for non-decreasing timestamps, the same samples as an unfiltered load, with the timestamp key first.", "quantifier": "every log, topic and window", "why_tests_cant": "All windows, including ones past the end.", "anchors": ["pyulog/extract_message.py:extract_message"]}
{"id": "C42", "title": "CSV output is rectangular and complete", "statement": "For each dataset the CSV has a header row and one row per sample in the window, each row with as many fields as the header, timestamp first, every non-padding field exactly once, char arrays as one string up to the first NUL.", "quantifier": "every dataset", "why_tests_cant": "All field layouts and contents.", "anchors": ["pyulog/ulog2csv.py:convert_ulog2csv", "pyulog/ulog2csv.py:read_string_data"]}
{"id": "C43", "title": "The GPS dump is split losslessly", "statement": "The to-device (from-device) file is the concatenation, in order, of the first len&0x7f data bytes of the gps_dump rows of the requested instance whose length byte has (has not) bit 7 set.", "quantifier": "every gps_dump dataset and instance", "why_tests_cant": "All rows and lengths.", "anchors": ["pyulog/extract_gps_dump.py:main"]}
{"id": "C44", "title": "Parameter listing is complete and ordered", "statement": "Every initial parameter (or selected default) is output once, sorted by name, with its initial value followed by its changed values in log order; nothing else is output.", "quantifier": "every log and option combination", "why_tests_cant": "All parameter sets and change histories.", "anchors": ["pyulog/params.py:main"]}
{"id": "C45", "title": "Message listing merges logs and events by time", "statement": "The listing contains every logged message (except tab-terminated duplicates in PX4 logs) and every event exactly once, in non-decreasing time order, and the displayed h:m:s is the time in seconds.", "quantifier": "every log", "why_tests_cant": "All message sequences.", "anchors": ["pyulog/messages.py:main", "pyulog/px4_events.py:PX4Events.get_logged_events"]}
{"id": "C46", "title": "KML track thinning and mode colouring", "statement": "Points of a track are a subsequence of the samples with a fix, consecutive ones more than the minimum interval apart, each drawn under the flight mode in force at its time, and each segment starts where the previous one ends.", "quantifier": "every position series and flight-mode history", "why_tests_cant": "All series.", "anchors": ["pyulog/ulog2kml.py:_kml_add_position_data"]}
{"id": "C47", "title": "Each dataset becomes its own ROS topic / CSV file", "statement": "Different datasets of a log are written to different ROS topics and different CSV files.", "quantifier": "every log", "why_tests_cant": "Name collisions need particular topic names.", "anchors": ["pyulog/ulog2ros2bag.py:convert_ulog2ros2bag", "pyulog/ulog2csv.py:convert_ulog2csv"]}
{"id": "C48", "title": "String-error mode of a load concerns only that load", "statement": "Whether invalid UTF-8 raises during a load is determined by the disable_str_exceptions argument of that load, whatever other loads run at the same time.", "quantifier": "every interleaving of two loads", "why_tests_cant": "Schedules.", "anchors": ["pyulog/core.py:ULog.__init__", "pyulog/core.py:ULog.parse_string"]}
{"id": "C49", "title": "Roll, pitch and yaw are those of the quaternion", "statement": "For a unit quaternion the added roll, pitch and yaw are well defined and, in exact arithmetic, rebuild the rotation of the quaternion away from gimbal lock.", "quantifier": "every unit quaternion", "why_tests_cant": "A continuum of inputs.", "anchors": ["pyulog/px4.py:PX4ULog._add_roll_pitch_yaw_to_message"]}
{"id": "C50", "title": "PX4 helpers decide by the initial parameters", "statement": "get_mav_type, get_estimator and get_configured_rc_input_names are functions of the initial parameters only: the tables are as documented, fixed wing always reports EKF2, and the RC names returned are exactly those of the RC_MAP_ parameters equal to channel+1.", "quantifier": "every parameter set and channel", "why_tests_cant": "All parameter sets.", "anchors": ["pyulog/px4.py:PX4ULog"]}
{"id": "C51", "title": "Every processed message is a frame of the file", "statement": "Whatever the file, the loaded object is the effect of a sequence of messages each of which lies in the file as a header and payload: in the data sections complete, in file order and without overlap; in the definition section likewise unless a corrupt header announces more bytes than the file has. For a well-framed file the sequence is exactly the file's messages up to the first malformed one.", "quantifier": "every byte string that loads", "why_tests_cant": "Ranges over all corrupt and truncated files.", "anchors": ["pyulog/core.py:ULog._read_file_data", "pyulog/core.py:ULog._read_file_definitions"]}
{"id": "C52", "title": "A well-formed log loads with exactly its documented contents", "statement": "For every file made of well-formed messages of the ULog format with consistent subscriptions, loading succeeds without corruption flag and info, multi-info, defaults, parameters, formats, logged and tagged messages, dropouts, changed parameters, last timestamp and datasets are exactly those the messages describe.", "quantifier": "every sequence of well-formed messages with consistent subscriptions", "why_tests_cant": "The set of well-formed logs is infinite.", "anchors": ["pyulog/core.py:ULog._load_file"]}
{"id": "C53", "title": "Migrating keeps the stored logs", "statement": "Migrating a database at version 2, 3 or 4 to the current version succeeds whatever it holds, keeps every row with its cells, turns REAL times into the integers they are, and does not reuse keys.", "quantifier": "every database content at versions 2 to 4", "why_tests_cant": "All contents of the tables.", "anchors": ["pyulog/sql/pyulog.3.sql", "pyulog/sql/pyulog.4.sql", "pyulog/sql/pyulog.5.sql", "pyulog/migrate_db.py:migrate_db"]}
{"id": "C54", "title": "Several processes on one database", "statement": "When several processes save, delete and open logs in one database file, in any interleaving of their transactions and SELECTs, the database stays the map given by the operations that succeeded, holds each file hash at most once, and opening a log by key gives the whole log as it was saved or an exception.", "quantifier": "every schedule of operations of other processes before every statement of an open, every time between the look for a hash and the transaction of a save, every stored log", "why_tests_cant": "All interleavings; races show up by chance only.", "anchors": ["pyulog/db.py:DatabaseULog.load", "pyulog/db.py:DatabaseULog.get_dataset", "pyulog/db.py:DatabaseULog.save", "pyulog/db.py:DatabaseULog.delete"]}
{"id": "C55", "title": "The report of ulog_info", "statement": "For a log whose software version, if any, is a number and whose topics have timestamps, ulog_info prints: a warning exactly if the log is flagged as corrupt; start time and duration as whole hours, minutes and seconds; number, total (nearest tenth of a second), longest and mean dropout; the software version; each info message once in alphabetic order, those named perf_* only with -v; each multi info message with its number of entries; and for each dataset a row with the bytes per sample, the number of samples and their product, which is the number of record bytes of the topic's data messages in the file. With -m it prints every entry of one multi info message, byte values in hexadecimal from which the bytes can be read back. If the tool ends with an exception, the screen shows the first lines (a software version that is no number), or the whole report of the same log with only the topics sorted before the first one without times; with -m, the entries before one that begins with a number, and the heading of that entry.", "quantifier": "every loaded log with times up to 2^53 us and fewer than 2^37 dropouts, both settings of -v and -n, every message name", "why_tests_cant": "All logs: the divisions go through floats, the order and the selection depend on arbitrary keys, and the byte counts have to agree with arbitrary files.", "anchors": ["pyulog/info.py:show_info", "pyulog/info.py:main"]}
{"id": "C56", "title": "From the database back to a file", "statement": "A saved log that is opened by its key with lazy=False, after any history of the database, is written by write_ulog as exactly the bytes that writing the saved log gives, so within the limits of the file format any reader gets a copy of the log that was saved; opened with lazy=True it is never written, whatever datasets were fetched in between.", "quantifier": "every stored log that fits the schema, every history of saves and deletes, every sequence of get_dataset calls", "why_tests_cant": "All contents and all histories.", "anchors": ["pyulog/db.py:DatabaseULog.write_ulog", "pyulog/db.py:DatabaseULog.load", "pyulog/core.py:ULog.write_ulog"]}
{"id": "C57", "title": "== between logs of files and of databases", "statement": "A ULog and a DatabaseULog are == in either order exactly if all attributes of a ULog agree; two DatabaseULogs exactly if, besides, key, database handle, lazy argument and file hash agree. == is symmetric. A log opened by its key with lazy=False after any history is == to the ULog that was saved, and two opens of one key with the same arguments are ==.", "quantifier": "every pair of logs, every stored log that fits the schema, every history of the database", "why_tests_cant": "All pairs of logs and all histories.", "anchors": ["pyulog/db.py:DatabaseULog.__eq__", "pyulog/core.py:ULog.__eq__"]}
{"id": "C58", "title": "The ROS 2 bag of a log", "statement": "ulog2ros2bag writes, for each topic that has a fitting class in px4_msgs (its name in camel case, or the first of the special names that applies), one message per sample in order, at 1000 times the timestamp, in which each field and array element holds the sample (a bool for a bool field), and fields unknown to the log their initial value. Topics without class, with composed fields or with a field the class does not have are named with the reason and contribute nothing. The counts printed are those of the bag.", "quantifier": "every log, every set of message classes, every topic name, every number of samples and fields", "why_tests_cant": "All logs and all versions of px4_msgs; the tests do not cover the converter at all.", "anchors": ["pyulog/ulog2ros2bag.py:convert_ulog2ros2bag", "pyulog/ulog2ros2bag.py:calc_msgtype", "pyulog/ulog2ros2bag.py:to_camel_case", "pyulog/ulog2ros2bag.py:ros2_msg_from_ulg_topic", "pyulog/ulog2ros2bag.py:ros2ify_value"]}
{"id": "C59", "title": "The KML map of a log", "statement": "ulog2kml writes, for each position topic with its colours, line strings named topic:mode whose points are the thinned path of the samples with a fix, each at the logged longitude, latitude and altitude (divided by 1e7, 1e7 and 1e3 when the topic's lon is an int32_t) plus the altitude offset, with the colour of the mode and the given style; and one point per camera trigger, in order, named by its sequence number. A position topic that is not in the log raises KeyError.", "quantifier": "every log, list of topics and colour functions, offset, minimum interval, style, camera topic and flight-mode history", "why_tests_cant": "All series of positions and modes, all combinations of topics, colours and styles.", "anchors": ["pyulog/ulog2kml.py:convert_ulog2kml", "pyulog/ulog2kml.py:_kml_add_position_data", "pyulog/ulog2kml.py:_kml_add_camera_triggers", "pyulog/ulog2kml.py:_kml_default_colors", "pyulog/ulog2kml.py:main"]}
{"id": "C60", "title": "Texts of formats, infos and parameters", "statement": "A format message is accepted exactly if its text is name, colon and a list of fields separated by semicolons, each field being a type, optionally a decimal array size in brackets, a space and a name; the format then has exactly these fields in order, and otherwise loading raises one of three exceptions. An info or parameter message is accepted exactly if its key text is 'type key' and the bytes after it are a value of that type, and then has that type, key and value.", "quantifier": "every payload of a format, info or parameter message, with and without disable_str_exceptions", "why_tests_cant": "The texts are arbitrary byte strings: missing or repeated separators, brackets, signs, spaces and underscores in sizes, broken UTF-8; tests only use the texts that PX4 writes.", "anchors": ["pyulog/core.py:ULog._MessageFormat", "pyulog/core.py:ULog._MessageFormat._extract_type", "pyulog/core.py:ULog._MessageInfo", "pyulog/core.py:_parse_string"]}
{"id": "C61", "title": "What a cut log shows is an initial part of the log", "statement": "A log file that stops early (power loss while recording, a crash while write_ulog writes it) loads without a corruption flag, and what it shows comes first in what the complete log shows: the same header, formats and initial parameters, an initial part of the text messages, dropouts and parameter changes, and of each dataset it has the first samples; every message that is complete in the file is shown. For files of write_ulog the info, multi-info and default entries are complete as well.", "quantifier": "every well-formed log, every log that write_ulog accepts, every number of bytes the file is cut to", "why_tests_cant": "All logs and all cut points.", "anchors": ["pyulog/core.py: ULog._load_file, ULog._read_file_definitions, ULog._read_file_data, ULog.write_ulog"]}
{"id": "C62", "title": "What is in the file when write_ulog returns or raises", "statement": "If write_ulog(name) returns, the file holds the complete log, whatever it held before. If it raises, the file holds exactly what writing a beginning of the log gives (the first formats, infos, info-multiples, parameters, defaults and topics, in this order, without samples), namely the longest beginning that can be written: each beginning of the log either writes an initial part of the file or raises the same exception. If already the header or the flags cannot be packed, the file is empty or holds the 16-byte header. Other files stay as they are.", "quantifier": "all objects, all previous contents of the disk, whichever message is the one that fails", "why_tests_cant": "The message that fails can be any of an unbounded number of messages of seven kinds; a test fails at a few chosen places, and does not compare with all beginnings of the log.", "anchors": ["pyulog/core.py:ULog.write_ulog", "pyulog/core.py:ULog._write_format_messages", "pyulog/core.py:ULog._write_info_messages", "pyulog/core.py:ULog._write_info_multiple_message", "pyulog/core.py:ULog._write_initial_parameters", "pyulog/core.py:ULog._write_default_parameters", "pyulog/core.py:ULog._write_logged_message_subscriptions", "pyulog/core.py:ULog._write_data_section"]}
{"id": "C63", "title": "Event definitions over the life of a PX4Events object", "statement": "A log that carries its own event definitions (first list of pieces under metadata_events, with a hash of 1 to 64 letters and digits) is shown with them whatever happened before, and the callback for default definitions is not called; if they are damaged no events are shown. Any other log with events makes exactly one call of the callback, which is told whether default definitions are there already; what it returns is used and kept, None means the kept ones. With the preset callback the definitions are downloaded again until a download succeeds and never after that. Each log of a history is shown as by a new object.", "quantifier": "all histories of logs given to one object, all callbacks and download outcomes, all definitions and event parsers", "why_tests_cant": "The outcome for a log depends on all logs, downloads and failures before it; a test replays a few histories.", "anchors": ["pyulog/px4_events.py:PX4Events.__init__", "pyulog/px4_events.py:PX4Events._get_default_json_definitions", "pyulog/px4_events.py:PX4Events.set_default_json_definitions_cb", "pyulog/px4_events.py:PX4Events._get_event_parser", "pyulog/px4_events.py:PX4Events.get_logged_events", "pyulog/messages.py:main"]}
{"id": "C64", "title": "What a failing conversion leaves in its files", "statement": "When ulog2csv ends, every topic's CSV file has its whole text and other files are as they were. When it raises at a topic, the files of the topics before it are whole, those of the topics after it and all others are as they were, and the file of that topic holds: nothing new if the topic has no timestamps; only the header line if a time limit is beyond its samples; the header, the rows of all samples before the failing one and the cells before the failing one (each followed by the delimiter, so no final newline) if a text is not ASCII. When extract_gps_dump meets a sample whose length is beyond the data fields it raises KeyError and both files hold the streams of the samples before it plus the data bytes that sample has.", "quantifier": "every loaded log, every content of the output directory, every delimiter, all limits that are exactly representable, every position of the failing topic, sample and column", "why_tests_cant": "the failing topic, sample and column can be anywhere in a log of any length; tests see the files of a few failures", "anchors": ["pyulog/ulog2csv.py: convert_ulog2csv, read_string_data", "pyulog/extract_gps_dump.py: main"]}
{"id": "C65", "title": "Exactly which logs can be saved to a database", "statement": "DatabaseULog.save() of an object without primary key returns exactly when no stored log has its hash and the log can be stored: all its numbers (start and last timestamp, appended offsets, ids, instances, levels, timestamps and durations, integer information, parameters and defaults) fit in 64 signed bits, all its texts can be encoded in UTF-8, each field of a dataset has a column, each information key has a type, and no two datasets have the same name and instance. With JSON copies it returns exactly when moreover each dataset with fields has a timestamp column and no field has minus infinity as the last of its values at some time. Whatever statement fails, what was saved could be stored; a log that cannot be stored is refused with an exception and leaves the database as it was. The exception tells why: an OverflowError means that the log has an integer outside 64 signed bits, a UnicodeEncodeError that it has a text with a surrogate, an IntegrityError that two datasets have the same name and instance, an OperationalError (with JSON copies only) that a copy would be no JSON, a KeyError that the object or its file is in the database already or that a column or type is not there; unless a statement fails for a reason outside the program there are no others, and a log of which one of these is true is never saved.", "quantifier": "all logs, all hashes, all databases made by the schema, with and without JSON copies, all failing statements", "why_tests_cant": "the condition is an equivalence over all logs: tests only save some logs, and a single unsigned 64-bit number, a repeated instance or an undecodable text anywhere in the log decides", "anchors": ["pyulog/db.py: DatabaseULog.save", "pyulog/sql/*.sql"]}
{"id": "C66", "title": "Texts of loaded logs can be encoded; which logs from files can be saved", "statement": "Whatever file a ULog was loaded from, with or without ignoring undecodable texts, all its names, keys, types and texts consist of Unicode code points without surrogates, so they can be encoded as UTF-8. A DatabaseULog made from a file can therefore be saved exactly when no stored log has its hash, its last timestamp, appended offsets, text message times and integer values are below 2^63, the array sizes in its formats fit in 64 signed bits, each field of a topic has a name, no two datasets have the same name and instance and nothing is there 2^63 times. A refused save of such a log raises KeyError (stored already, a field without a name, or, with JSON copies, a topic without times), OverflowError, IntegrityError or, with JSON copies, OperationalError, each for its own reason, and never a UnicodeEncodeError.", "quantifier": "all files (byte strings), all load options, all databases made by the schema", "why_tests_cant": "ranges over all byte strings a reader accepts, including damaged ones; tests save a few good logs", "anchors": ["pyulog/core.py: ULog._load_file, ULog.parse_string", "pyulog/db.py: DatabaseULog.__init__, DatabaseULog.save"]}
{"id": "C67", "title": "Exactly which logs can be written as a file", "statement": "write_ulog succeeds on a log exactly when every part fits the format: header, flags and dataset numbers in their byte ranges, texts without surrogates, messages of at most 65535 bytes, information values under a basic type, char[ or uint8_t[ that holds them, parameters that fit int32_t or float, default types 0 to 7, and every dataset with a column for each field, an integer timestamp and ASCII chars. Of a log that was loaded from any file only these can fail: a format text that grows beyond a message, an information message with another array type, values under a key of multiple messages that do not fit the type of the first, a parameter that does not fit int32_t or float, a default type above 7, and a dataset without a timestamp, with a field without a name or with a char that is not ASCII. A failure is one of StructError, KeyError, TypeError, ValueError, OverflowError, IndexError and UnicodeEncodeError, on a log that was loaded from a file one of the first five.", "quantifier": "all logs, and all logs loaded from any byte string under any options, whose timestamps are integers", "why_tests_cant": "ranges over all values of all attributes and over all files a reader accepts; tests write a few good logs", "anchors": ["pyulog/core.py: ULog.write_ulog, ULog._make_info_message_data, ULog._make_parameter_data, ULog._write_default_parameters, ULog._make_data_items"]}
{"id": "C68", "title": "The command-line programs: exit status and files", "statement": "ulog2csv and ulog_extract_gps_dump never change the log they read, whatever its name and the output directory, and write no file but those named after the log (without .ulg), the topic or GPS instance, beside the log, in the current or in the output directory; ulog_params and ulog2kml write at most the output file, ulog_messages and ulog_info none. A log that cannot be loaded leaves all files as they were. ulog2csv has status 0 exactly when every topic's file is complete; with -m it writes, for the topics asked for, the same files as without, and no others. ulog_extract_gps_dump has status 2 without its output directory, 0 without gps_dump messages, 255 if the topic lacks the fields, else it writes the two streams of the first gps_dump topic of the log. The output file of ulog_params has the text printed without one; ulog_params -i (without -t) and ulog_messages, which load no or one topic, list what the whole log has. The progress lines tell the files: ulog2csv has printed a line, with the number of samples, for exactly the topics whose files it has begun, also when it raises, and one for a directory it makes; ulog_extract_gps_dump names the two files it writes, after a warning exactly if the log has dropouts, or says why there are none.", "quantifier": "every disk, log file, combination of options, output directory and outcome of loading", "why_tests_cant": "the names of logs and directories, the contents of the log and the options combine without bound; a test sees the outputs it looks for, not that every other file stays as it was", "anchors": ["pyulog/ulog2csv.py: main, convert_ulog2csv", "pyulog/extract_gps_dump.py: main", "pyulog/params.py: main", "pyulog/messages.py: main", "pyulog/info.py: main", "pyulog/ulog2kml.py: main"]}
{"id": "C69", "title": "ulog_migratedb runs the scripts of the given directory, and -n shows exactly those", "statement": "Given a directory of scripts whose name has no braces, ulog_migratedb reads pyulog.N.sql of that directory for every N from the database's version + 1 to 5, in order; a script whose text, apart from white space around it, does not begin with BEGIN; and end with COMMIT; is refused with ValueError and none of it is executed; the outcome and the database are those of the migration by these scripts (C37, C38, C40). With -n the same scripts are printed, each as its name and the text that would be executed, and an existing database is unchanged; a run names a prefix of these scripts, all of them exactly if it succeeds. Without the directory nothing is printed or done.", "quantifier": "all disks and texts of scripts, all ways SQLite may split a text into statements, all directories, databases and options", "why_tests_cant": "the tests use the shipped directory and a few literal scripts; the claim ranges over every directory name, every text and line end, and every state of the database", "anchors": ["pyulog/migrate_db.py:main", "pyulog/migrate_db.py:_read_migration_file", "pyulog/migrate_db.py:migrate_db"]}
{"id": "C70", "title": "Exactly which messages of any file are read", "statement": "Whatever the bytes of a file, the result of loading it (the log or the exception) is the one given by a walk through these bytes: definition messages from byte 16 on up to the first message of the data section, then section by section every whole message of a known type, unknown plausible messages skipped (up to a sync sequence inside them), from garbage on to the next sync sequence or the next byte, until no whole message is left before the start of the next section; the messages met are processed in that order up to the first one the reader gives up at. Every place of every file can be walked in exactly one way, and the log is determined by that walk.", "quantifier": "every sequence of bytes, all arguments of the loader, every kind of file object", "why_tests_cant": "damaged files are unlimited in number; a test sees the outcome for the few it contains", "anchors": ["pyulog/core.py: ULog._load_file, _read_file_header, _read_file_definitions, _read_file_data, _find_sync, _check_packet_corruption"]}
{"id": "C71", "title": "Damage followed by a sync sequence costs only itself", "statement": "If damaged bytes are put into the data section of a log without appended data at any number of places, each recognised as damage (a whole message of an unknown type with type 0, size 0 or size over 10000, or a plausible unknown message around the sync sequence) and followed by a sync sequence, then the log loaded is that of the file without the damaged bytes and their sync sequences, with file_corruption set. If the reader gives up at a message (C21), the two logs still agree up to this flag.", "quantifier": "every log without appended data of at most 2^50/10000 bytes, every number, place and content of damaged parts behind its first data-section message", "why_tests_cant": "the places and contents of damage are unlimited", "anchors": ["pyulog/core.py: ULog._read_file_data, _find_sync, _check_packet_corruption, file_corruption"]}
{"id": "C72", "title": "JSON copies of the stored values", "statement": "save(append_json=True) hands SQLite, for each field, a text that is a JSON text (RFC 8259) exactly if no value that counts is minus infinity, where of the samples with one timestamp only the last one counts. Then the text has one reading: the object whose keys are the distinct timestamps in decimal, in the order in which they come first, each with the value of its last sample: integers and finite floats as numbers, NaN and plus infinity as null. If every text is JSON, save does the same as without append_json; if one is not, a save that would go through without append_json raises OperationalError and leaves the database as it was. For fields of finite numbers at distinct timestamps the text determines the values.", "quantifier": "all columns of timestamps of an integer type, all columns of values (bit patterns of every numeric type), all lengths; all databases and logs; every repr() of finite floats that yields JSON numbers", "why_tests_cant": "The text is made by three textual replacements over all values, whose interplay (nan, inf and -inf inside of other texts, quotes, repeated timestamps) depends on every value and on their order; tests see a few columns.", "anchors": ["pyulog/db.py: DatabaseULog.save (append_json, values_json, 560-591)"]}
{"id": "C73", "title": "ulog2ros2bag as a program", "statement": "A run of ulog2ros2bag that ends with status 0 leaves a bag, under the name given with -o or else rosbag_ and the name of the log without its directory and ending, in the storage chosen with --mcap, that holds exactly what the topics of the log contribute, or with -m those of the named topics under the names they have without -m. It calls the installed rosbag2_py with the arguments that its version takes. If an exception ends the run before the topics, there is no bag; later, the bag holds the topics before the one that failed, and of this one nothing or the topic with the messages before the one that failed.", "quantifier": "all logs, arguments, installed message classes and versions a.b.c of rosbag2_py, all points at which the conversion fails", "why_tests_cant": "The bag after an exception depends on which sample of which topic fails; versions are compared as texts, which agrees with their order for the versions that are tried and not for others; both range over unbounded sets.", "anchors": ["pyulog/ulog2ros2bag.py: main, convert_ulog2ros2bag, rosbag_topicmetadata_uses_id, rosbag_write_uses_seqnum"]}
{"id": "C74", "title": "Logs in file objects", "statement": "ULog(file_object) reads the log that begins where the object stands: whatever is before that place, the result (the log, an exception or none) is the one of a file on disk that holds only the bytes from there on, for logs whose header names no offsets of appended data and whose load alone does not raise OSError. The object is closed exactly when the constructor returns, also one that the caller opened, and a closed one raises ValueError. write_ulog(file_object) writes from where the object stands on, keeps what is in front and what is behind the written bytes, fills a gap with zeros and leaves the object open right behind them, also (with a beginning of the log) when it raises. A log written at the end of an object and read back from the same place is the copy that a file of its own gives.", "quantifier": "every contents of the object before and behind the log, every place, every log, all arguments of the loader, every kind of file object", "why_tests_cant": "The relative and absolute seeks of the reader meet arbitrary bytes before the log; that none of them matters holds for all files and places only by a simulation proof over the whole reader.", "anchors": ["pyulog/core.py:ULog._load_file", "pyulog/core.py:ULog._read_file_definitions", "pyulog/core.py:ULog._read_file_data", "pyulog/core.py:ULog._find_sync", "pyulog/core.py:ULog.write_ulog"]}
{"id": "C75", "title": "What the bytes of a log stand for", "statement": "Integers of a log (message fields, information values, parameters) are little-endian two's complement numbers of their size; floats and doubles are the IEEE 754 numbers that their bits encode, a float being read as the double of the same value; texts are UTF-8 as in Table 3-7 of Unicode, where with errors ignored the longest ill-formed start of a character is left out. An information or parameter message is read exactly if its bytes say so, and every value of every dataset of a loaded log is what the bytes of its field stand for in its data message. Writing gives the bytes that stand for the value: an integer outside its type is refused, a double that is written as a float is rounded to the nearest float, ties to even, and raises OverflowError exactly if it rounds to more than the largest one; an integer under a float type is first rounded to the nearest double, and refused if it is too large for one.", "quantifier": "every byte string, every type, every integer and every binary64 number, every file that loads", "why_tests_cant": "2^64 doubles and all byte strings: rounding at every binade border, subnormals, NaN payloads and ill-formed UTF-8 have cases no suite lists; the readers are compared with a definition of the encodings that does not mention them.", "anchors": ["pyulog/core.py:ULog._UNPACK_TYPES", "pyulog/core.py:ULog.parse_string", "pyulog/core.py:ULog._MessageInfo.__init__", "pyulog/core.py:ULog._write_info_messages", "pyulog/core.py:ULog._write_initial_parameters"]}
{"id": "C76", "title": "file_corruption is set exactly for the listed reasons", "statement": "The file_corruption attribute of a log that loads without parse_header_only is true if and only if one of these lies on the reader's walk through the file: a place where the walk met garbage; an information, multi information, parameter or default parameter message whose text has no name; in the definitions a format message without its parts; a data message whose size does not fit its subscription; a data message whose id the section has not subscribed before it and that no message filter has left out. No other message, known or unknown, sets it, whatever precedes it. The ids the reader warns about are exactly those of the data messages of the last kind, each once. With parse_header_only the definitions alone decide.", "quantifier": "every file that loads, every message filter, strict or lenient strings, any number of appended sections", "why_tests_cant": "a flag that is sometimes forgotten, or set by a harmless message, is only seen on the input that shows it; the law ranges over all files, positions, filters and earlier messages.", "anchors": ["pyulog/core.py:ULog.file_corruption", "pyulog/core.py:ULog.MessageData.initialize", "pyulog/core.py:ULog._read_file_definitions", "pyulog/core.py:ULog._read_file_data", "pyulog/core.py:ULog._missing_message_ids"]}
