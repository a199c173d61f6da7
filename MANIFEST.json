{
 "claims": [
  {
   "property": "C01",
   "status": "proved",
   "theorems": [
    "C01_built_request_gives_back_arguments",
    "C01_no_arguments_no_iterator"
   ],
   "note": "All commands, key types and argument lists of up to 255 non-empty arguments."
  },
  {
   "property": "C02",
   "status": "proved",
   "theorems": [
    "C02_wire_format",
    "C02_wire_unambiguous"
   ],
   "note": "Format and unambiguity (self-delimiting)."
  },
  {
   "property": "C03",
   "status": "proved",
   "theorems": [
    "C03_values_survive_the_request",
    "C03_accepted"
   ],
   "note": "For every value the builder accepts, any iteration order; acceptance shown separately."
  },
  {
   "property": "C04",
   "status": "partial",
   "theorems": [
    "C04_exact_partial",
    "C04_refuted",
    "C04_partial",
    "C04_exact_bytes_partial",
    "C04_refusals_partial"
   ],
   "note": "False of the code: the 256th argument panics (debug) or is sent with count byte 0 (release), a refused list leaves items behind, maps are checked by entry count, list lengths are truncated to 8 bits. C04_exact_partial: the outcome of every chain of builder calls (panic, refusal, arguments left in the request, bytes) in terms of a list that grows; also everything that fits is accepted in full."
  },
  {
   "property": "C05",
   "status": "partial",
   "theorems": [
    "C05_refuted",
    "C05_partial",
    "C05_sent_partial"
   ],
   "note": "False of the code: the count byte restarts from 0. Proved: all arguments stay readable, and exactly what is sent (C05_sent_partial)."
  },
  {
   "property": "C06",
   "status": "partial",
   "theorems": [
    "C06_refuted",
    "C06_partial"
   ],
   "note": "False of the code: positions are cleared before the request is returned and the key type is read from the wrong byte, so no argument or key type survives. Proved: exactly what comes back for every request, and that the command is recognised."
  },
  {
   "property": "C07",
   "status": "proved",
   "theorems": [
    "C07_parsed_requests_are_bare",
    "C07_high_first_byte_rejected",
    "C07_parser_restarts"
   ],
   "note": "For every sequence of buffers."
  },
  {
   "property": "C08",
   "status": "proved",
   "theorems": [
    "C08_chunking_first_answer",
    "C08_chunking_whole",
    "C08_chunking_none",
    "C08_resume"
   ],
   "note": "For every growing sequence of prefixes; answers compared up to the borrowed buffer."
  },
  {
   "property": "C09",
   "status": "partial",
   "theorems": [
    "C09_refuted",
    "C09_terminates_partial",
    "C09_partial",
    "C09_every_input_partial",
    "C09_panics_exactly_partial"
   ],
   "note": "False of the code: count byte 0 followed by 257 arguments overflows the fixed-capacity position vector. Proved: termination, exactly what every input is read as (C09_every_input_partial), and so exactly which inputs panic."
  },
  {
   "property": "C10",
   "status": "proved",
   "theorems": [
    "C10_response_round_trip"
   ],
   "note": "Every response within the limits, any iteration order, any combination of sender and receiver build. The empty values the parser cannot decode are the subject of C14."
  },
  {
   "property": "C11",
   "status": "proved",
   "theorems": [
    "C11_frame_length",
    "C11_stream_is_cut"
   ],
   "note": "Frame length, untouched prefix, and cutting of whole streams."
  },
  {
   "property": "C12",
   "status": "proved",
   "theorems": [
    "C12_asks_for_missing_bytes",
    "C12_asking_forgets_nothing"
   ],
   "note": "Any sequence of strict prefixes, then the whole message; and for arbitrary bytes, asking for more forgets nothing."
  },
  {
   "property": "C13",
   "status": "proved",
   "theorems": [
    "C13_trailing_bytes",
    "C13_parser_reuse",
    "C13_any_input"
   ],
   "note": "Any trailing bytes; parser reuse over whole streams; for arbitrary bytes, no answer or error depends on later bytes."
  },
  {
   "property": "C14",
   "status": "partial",
   "theorems": [
    "C14_refuted",
    "C14_refuted_misparse",
    "C14_partial"
   ],
   "note": "False of the code for empty lists and sets (both builds) and empty bytes (debug). Proved for the others, and exactly what goes wrong."
  },
  {
   "property": "C15",
   "status": "partial",
   "theorems": [
    "C15_refuted",
    "C15_partial",
    "C15_written_partial",
    "C15_exactly_partial"
   ],
   "note": "False of the code: a 256-byte map key is silently corrupted. Proved for both builds: exactly what is refused and what is written (C15_written_partial), and that exactly the values whose parts fit their fields come back (C15_exactly_partial); C15_partial restates this for debug builds."
  },
  {
   "property": "C16",
   "status": "partial",
   "theorems": [
    "C16_refuted",
    "C16_partial",
    "C16_terminates_partial",
    "C16_incomplete_partial",
    "C16_crashes_exactly_partial",
    "C16_stalls_exactly_partial"
   ],
   "note": "False of the code: unknown error codes panic, short messages underflow. Proved: termination; exactly which inputs crash (both builds) and exactly which are answered by a request for no bytes; incomplete messages only ask for bytes."
  },
  {
   "property": "C17",
   "status": "proved",
   "theorems": [
    "C17_set_then_get"
   ],
   "note": "Every state, ordinary key, value kind, iteration order and build; a debug build may crash on an answer that does not fit the format."
  },
  {
   "property": "C18",
   "status": "proved",
   "theorems": [
    "C18_other_keys_untouched"
   ],
   "note": "Every request, also malformed, and every outcome including panics."
  },
  {
   "property": "C19",
   "status": "proved",
   "theorems": [
    "C19_read_only"
   ],
   "note": "Every request and outcome."
  },
  {
   "property": "C20",
   "status": "partial",
   "theorems": [
    "C20_refuted",
    "C20_partial"
   ],
   "note": "False of the code: a float increment of a missing key creates an integer key and errors. Proved for every other case."
  },
  {
   "property": "C21",
   "status": "proved",
   "theorems": [
    "C21_exact",
    "C21_wraps",
    "C21_panics",
    "C21_other_kinds",
    "C21_inverse"
   ],
   "note": "Exact sums, wrapping, debug panics, refusals and the inverse law."
  },
  {
   "property": "C22",
   "status": "partial",
   "theorems": [
    "C22_refuted",
    "C22_partial",
    "C22_partial_other_kinds"
   ],
   "note": "False of the code on missing keys (an integer key is created). Proved on float keys and on keys of other kinds. NaN payloads are canonicalised in the model."
  },
  {
   "property": "C23",
   "status": "partial",
   "theorems": [
    "C23_refuted",
    "C23_partial"
   ],
   "note": "False of the code: float amounts are never used. Proved: the refusal leaves everything unchanged."
  },
  {
   "property": "C24",
   "status": "proved",
   "theorems": [
    "C24_append",
    "C24_two_requests_or_one",
    "C24_other_kinds"
   ],
   "note": "Bytes, lists and strings, stored or missing keys, and the splitting law."
  },
  {
   "property": "C25",
   "status": "partial",
   "theorems": [
    "C25_refuted",
    "C25_partial"
   ],
   "note": "False of the code: invalid arguments are dropped silently. Proved: exactly the valid ones are stored, in order."
  },
  {
   "property": "C26",
   "status": "proved",
   "theorems": [
    "C26_delete",
    "C26_delete_again",
    "C26_delete_missing"
   ],
   "note": "Present, absent and repeated deletes."
  },
  {
   "property": "C27",
   "status": "proved",
   "theorems": [
    "C27_rename",
    "C27_rename_refused",
    "C27_rename_back"
   ],
   "note": "Moves, refusals and the inverse."
  },
  {
   "property": "C28",
   "status": "proved",
   "theorems": [
    "C28_exists",
    "C28_is"
   ],
   "note": "Every list of keys."
  },
  {
   "property": "C29",
   "status": "proved",
   "theorems": [
    "C29_length",
    "C29_every_value_has_a_size",
    "C29_errors"
   ],
   "note": "Sizes, with Unicode characters specified by their encodings, and errors."
  },
  {
   "property": "C30",
   "status": "proved",
   "theorems": [
    "C30_keys",
    "C30_errors"
   ],
   "note": "Any iteration order, and the errors."
  },
  {
   "property": "C31",
   "status": "proved",
   "theorems": [
    "C31_echo"
   ],
   "note": "Every argument list."
  },
  {
   "property": "C32",
   "status": "proved",
   "theorems": [
    "C32_refinement",
    "C32_refinement_release"
   ],
   "note": "Every history shorter than 2^63 requests of mixed builds and iteration orders; calls to a debug build must have answers that fit the format."
  },
  {
   "property": "C33",
   "status": "proved",
   "theorems": [
    "C33_stored",
    "C33_answers"
   ],
   "note": "Stored data: arbitrary requests. Answers: requests with a list of arguments; a Length of 2^63 or more is excepted."
  },
  {
   "property": "C34",
   "status": "proved",
   "theorems": [
    "C34_release",
    "C34_reserved",
    "C34_reserved_always",
    "C34_debug"
   ],
   "note": "Release: every request. Debug: every request whose accessors give a list of arguments (all built and parsed ones do)."
  },
  {
   "property": "C35",
   "status": "partial",
   "theorems": [
    "C35_refuted",
    "C35_refuted_create",
    "C35_partial",
    "C35_partial_set",
    "C35_discreet_partial",
    "C35_refuted_type"
   ],
   "note": "False of the code: Exists, Is, Type, Delete and Rename do not check the prefix, and Append, Keys and Length without a type show the type stored at a reserved key. Proved: only Delete, Rename and Set can change a reserved key; Set never stores there; and the outcome of Get, Increment(By), Decrement(By), Echo, Stats, and of Append, Keys, Length and Set with a type, does not depend on what reserved keys hold."
  },
  {
   "property": "C36",
   "status": "proved",
   "theorems": [
    "C36_statistics"
   ],
   "note": "Every history of requests and session operations shorter than 2^63."
  },
  {
   "property": "C37",
   "status": "proved",
   "theorems": [
    "C37_command_id",
    "C37_key_type",
    "C37_response_type",
    "C37_dispatch_error",
    "C37_parse_error",
    "C37_command_name",
    "C37_command_id_top_bit_free",
    "C37_commands",
    "C37_codes",
    "C37_names"
   ],
   "note": "Every identifier table, every byte, every string."
  },
  {
   "property": "C38",
   "status": "partial",
   "theorems": [
    "C38_refuted",
    "C38_partial",
    "C38_content_partial"
   ],
   "note": "False of the code for is_string, which matches booleans. Proved for all other accessors."
  },
  {
   "property": "C39",
   "status": "partial",
   "theorems": [
    "C39_refuted",
    "C39_one_answer_a_line",
    "C39_partial",
    "C39_lines_partial",
    "C39_comes_to_rest"
   ],
   "note": "False of the code: C39_refuted (a request without a newline after it is never answered, for all runs), C39_one_answer_a_line (everything behind the first request of a line is ignored). Strongest true part: C39_partial says for every run, number of connections and schedule exactly which messages the stream is cut into and that they are answered in order; C39_lines_partial that accepted requests each followed by a newline get one response each; C39_comes_to_rest that a scheduled task gets there."
  },
  {
   "property": "C40",
   "status": "proved",
   "theorems": [
    "C40_data_unchanged",
    "C40_answers"
   ],
   "note": "For every set of connections, byte stream, failure and schedule. The counters must not be about to overflow for C40_answers (room_during); C40_data_unchanged needs nothing."
  },
  {
   "property": "C41",
   "status": "proved",
   "theorems": [
    "C41_same_answers",
    "C41_any_segmentation",
    "C41_alone",
    "C41_alone_sequential"
   ],
   "note": "C41_any_segmentation: any other segmentation can have the same behaviour on all connections. C41_same_answers: and whatever happens elsewhere, the responses are the same except for the numbers in Stats answers, which count the commands of all connections. C41_alone: exactly the same bytes when there is no other connection; they are the sequential dispatch of the messages (C41_alone_sequential)."
  },
  {
   "property": "C42",
   "status": "partial",
   "theorems": [
    "C42_refuted",
    "C42_float_amounts",
    "C42_float_amounts_fail",
    "C42_partial",
    "C42_every_history_partial"
   ],
   "note": "False of the code: float amounts are added as the integers with their bits (C42_refuted, C42_float_amounts, C42_float_amounts_fail). C42_partial: for every history of the other calls within the stated limits the memory client answers and stores what the map does, composed through builder, dispatch, encoder and decoder. C42_every_history_partial: for every history of all calls whose arguments and values fit the formats, exactly what is answered and stored: the map with five departures, panics included."
  },
  {
   "property": "C43",
   "status": "partial",
   "theorems": [
    "C43_refuted",
    "C43_get_other_kind",
    "C43_partial",
    "C43_exactly_partial"
   ],
   "note": "False of the code: listed calls panic (C43_refuted), every typed read of another type does (C43_get_other_kind). C43_partial: with valid arguments every call returns, unless an integer overflows in a debug build or a typed call meets another type. C43_exactly_partial: after every history whose arguments and values fit, a call panics exactly when it is given an internal key, an integer overflows in a debug build, or a typed call is answered with another type."
  },
  {
   "property": "C44",
   "status": "partial",
   "theorems": [
    "C44_refuted",
    "C44_partial",
    "C44_increment_untyped",
    "C44_refused",
    "C44_unanswered"
   ],
   "note": "False of the code: no call on a server client ever returns a value (C44_refuted), because it reads into an empty vector. C44_partial: what is written is exactly the request. Also: increment loses its key type, and the written request is not answered by the server."
  },
  {
   "property": "C45",
   "status": "partial",
   "theorems": [
    "C45_get_partial",
    "C45_subscribe_partial",
    "C45_unsubscribe_partial",
    "C45_refuted"
   ],
   "note": "False as stated (C45_refuted): subscribe to a key any session ever subscribed to reports failure although it takes effect, and unsubscribe by a removed first subscriber reports success. Proved: the live subscriptions are exactly the specified ones, and exactly when subscribe and unsubscribe report success."
  },
  {
   "property": "C46",
   "status": "partial",
   "theorems": [
    "C46_recorded_partial",
    "C46_refuted"
   ],
   "note": "False as stated (C46_refuted): only the first subscriber of a key is ever recorded under it and removing the session does not remove it there. Proved: the recorded sessions are exactly the first subscriber unless it unsubscribed."
  },
  {
   "property": "C47",
   "status": "proved",
   "theorems": [
    "C47_session_ids",
    "C47_every_event"
   ],
   "note": "For histories mixing commands, additions and removals; what every addition and removal returns also beyond 2^32 additions."
  },
  {
   "property": "C48",
   "status": "partial",
   "theorems": [
    "C48_distinct_partial",
    "C48_refuted",
    "C48_refuted_own_id",
    "C48_consecutive_partial",
    "C48_exactly_partial",
    "C48_always_ends_partial",
    "C48_overlap_partial"
   ],
   "note": "False as stated: an addition can panic and a session can be stored under an id that is not its own (C48_refuted, C48_refuted_own_id). Proved for every number of additions below 2^32 and every interleaving: additions that return give distinct ids whose entry holds the token; the ids returned are exactly 0..n-1 with n at least one, and the next id, the counter and the locks are left right; no run is stuck; an addition panics only if it overlapped another between its insertion and its store."
  },
  {
   "property": "C49",
   "status": "proved",
   "theorems": [
    "C49_duration",
    "C49_running",
    "C49_start",
    "C49_stop",
    "C49_reading"
   ],
   "note": "Clock readings quantified over all monotonic sequences."
  },
  {
   "property": "C50",
   "status": "proved",
   "theorems": [
    "C50_readers",
    "C50_writers",
    "C50_dropped",
    "C50_snapshot"
   ],
   "note": "For any key type; fewer than 2^64 operations."
  },
  {
   "property": "C51",
   "status": "proved",
   "theorems": [
    "C51_exact",
    "C51_succeeded",
    "C51_release",
    "C51_always_an_integer"
   ],
   "note": "Any number of clients, any schedule, next to any commands that do not write the key. C51_exact: unless a selection of the amounts overflows (or an amount itself is outside 64 bits, which is possible for the negation in DecrementBy), all succeed and the final value is exact. C51_succeeded and C51_release: what happens with overflow."
  },
  {
   "property": "C52",
   "status": "partial",
   "theorems": [
    "C52_refuted",
    "C52_partial",
    "C52_counts_partial",
    "C52_any_partial",
    "C52_any_count_partial"
   ],
   "note": "False of the code (C52_refuted): the missing-key path inserts the default over a concurrent result. Proved instead, exactly: the final value is the sum of the amounts of some non-empty set of the successful clients (C52_partial), and every such sum is the outcome of some schedule in which all succeed (C52_any_partial); for increments by one: exactly the counts from 1 to their number."
  },
  {
   "property": "C53",
   "status": "partial",
   "theorems": [
    "C53_refuted_invisible",
    "C53_refuted_overwrites",
    "C53_partial",
    "C53_refuted_lost"
   ],
   "note": "False of the code, in both clauses (C53_refuted_invisible, C53_refuted_overwrites), and two renames to the same free name may both succeed and destroy one of the values (C53_refuted_lost). Proved for renames whose keys no other client writes: the value is under exactly one name except between the removal and the next step of the renaming client, which puts it at the destination. Renames and deletes that race for one key: C115."
  },
  {
   "property": "C54",
   "status": "partial",
   "theorems": [
    "C54_refuted_missing",
    "C54_refuted_default",
    "C54_partial",
    "C54_get_partial"
   ],
   "note": "False of the code (C54_refuted_missing, C54_refuted_default). Proved: while one client sets a key nobody else writes, the key holds the old value, nothing, the empty value of the type or the new value, and a concurrent Get answers one of these."
  },
  {
   "property": "C55",
   "status": "proved",
   "theorems": [
    "C55_progress",
    "C55_bounded",
    "C55_stops"
   ],
   "note": "One step is one access to the store; that accesses under the shard locks may be taken for single steps is C84."
  },
  {
   "property": "C56",
   "status": "proved",
   "theorems": [
    "C56_linearizable",
    "C56_one_after_another"
   ],
   "note": "Linearization point inside the call: at its beginning or while it has not returned. For Append, Increment etc. on a key that exists throughout."
  },
  {
   "property": "C57",
   "status": "proved",
   "theorems": [
    "C57_counters",
    "C57_counters_at_the_end"
   ],
   "note": "Also at every intermediate moment."
  },
  {
   "property": "C58",
   "status": "partial",
   "theorems": [
    "C58_reads_partial",
    "C58_reads_only",
    "C58_rejects_name",
    "C58_rejects_no_name",
    "C58_rejects_words",
    "C58_rejects_empty",
    "C58_no_panic",
    "C58_stats_refuted",
    "C58_too_many_refuted"
   ],
   "note": "Holds for any function that reads floats; the one of the library is in C113. C58_reads_partial and C58_reads_only characterise the lines read; false for arguments of Stats (C58_stats_refuted) and for more than 256 arguments (C58_too_many_refuted, a panic)."
  },
  {
   "property": "C59",
   "status": "partial",
   "theorems": [
    "C59_refuted",
    "C59_never_reported",
    "C59_partial"
   ],
   "note": "False of the code: C59_refuted, an odd list of map arguments is accepted and its last key dropped. C59_partial: a request holds whole pairs only."
  },
  {
   "property": "C60",
   "status": "partial",
   "theorems": [
    "C60_refuted",
    "C60_partial",
    "C60_fresh_partial"
   ],
   "note": "False of the code: the length is the range end, not the number of items left. Proved: it exceeds the number left by exactly the position."
  },
  {
   "property": "C61",
   "status": "proved",
   "theorems": [
    "C61_remove_closes",
    "C61_exactly",
    "C61_live_open",
    "C61_own"
   ],
   "note": "Closed means Subscription::close was called."
  },
  {
   "property": "C62",
   "status": "partial",
   "theorems": [
    "C62_reports_partial",
    "C62_refuted"
   ],
   "note": "False as stated (C62_refuted): true also when the session unsubscribed from everything. Proved: true iff it subscribed since its last removal."
  },
  {
   "property": "C63",
   "status": "proved",
   "theorems": [
    "C63_undisturbed"
   ],
   "note": ""
  },
  {
   "property": "C64",
   "status": "proved",
   "theorems": [
    "C64_well_typed"
   ],
   "note": "For arbitrary requests, including malformed ones."
  },
  {
   "property": "C65",
   "status": "proved",
   "theorems": [
    "C65_crash_own_bytes",
    "C65_exactly"
   ],
   "note": "For every run of the server."
  },
  {
   "property": "C66",
   "status": "proved",
   "theorems": [
    "C66_exact",
    "C66_from_engine"
   ],
   "note": "The accessors of the statistics on the client side, also through a call. Stats leaves out counters from 2^63 on and the ended sessions: these read as zero."
  },
  {
   "property": "C67",
   "status": "proved",
   "theorems": [
    "C67_exact"
   ],
   "note": "The key count check of the multi-key requests."
  },
  {
   "property": "C68",
   "status": "partial",
   "theorems": [
    "C68_partial",
    "C68_missing_words",
    "C68_many_words_partial",
    "C68_refuted",
    "C68_step_type_refuted"
   ],
   "note": "False of the code: C68_refuted, five commands always panic; C68_step_type_refuted, the key type of increment and decrement is ignored; lines of more than 255 arguments panic, except for 256 in release builds (C68_many_words_partial). C68_partial: the other commands do what the client call does."
  },
  {
   "property": "C69",
   "status": "partial",
   "theorems": [
    "C69_refuted",
    "C69_last_character",
    "C69_last_empty",
    "C69_nothing"
   ],
   "note": "False of the code: the last character is dropped (C69_refuted), or printing panics (C69_last_character, C69_nothing)."
  },
  {
   "property": "C70",
   "status": "proved",
   "theorems": [
    "C70_integer_text",
    "C70_integer_read",
    "C70_integer_round_trip",
    "C70_text",
    "C70_repaired"
   ],
   "note": "Integers and lossy UTF-8."
  },
  {
   "property": "C71",
   "status": "partial",
   "theorems": [
    "C71_partial",
    "C71_refuted",
    "C71_end_of_input",
    "C71_every_session_partial",
    "C71_lines",
    "C71_lines_end",
    "C71_trimmed"
   ],
   "note": "False of the code: C71_refuted, a line that cannot be read ends the program. C71_partial: lines that are answered are answered in order. C71_every_session_partial: exactly what every session prints and how it ends: the lines before the first that cannot be read (or is not UTF-8, or crashes) are answered one by one, and the program ends there or at the end of the input."
  },
  {
   "property": "C72",
   "status": "partial",
   "theorems": [
    "C72_partial",
    "C72_set_partial",
    "C72_refuted",
    "C72_refuted_half",
    "C72_refuted_half_happens"
   ],
   "note": "False of Set: C72_refuted (a value at a reserved key is lost) and C72_refuted_half (an empty map or set is left). C72_partial: all other commands; C72_set_partial: exactly what Set leaves."
  },
  {
   "property": "C73",
   "status": "proved",
   "theorems": [
    "C73_rounded",
    "C73_whole",
    "C73_stuck",
    "C73_sum",
    "C73_zero",
    "C73_special",
    "C73_determined"
   ],
   "note": "Rounding is proved from the bit fields, without real numbers: [FloatSpec] measures floats in units of 2^-1074. That f64 addition of the machine is IEEE addition (SpecFloat of the standard library) is part of the trusted base, and NaN payloads are not modelled."
  },
  {
   "property": "C74",
   "status": "proved",
   "theorems": [
    "C74_linearizable",
    "C74_locked"
   ],
   "note": "Whole histories, with the real-time order. For multi-step commands (Set, Rename, updates of missing keys, untyped Length, Keys and Append) it is false, see C52 - C54."
  },
  {
   "property": "C75",
   "status": "proved",
   "theorems": [
    "C75_first_poll",
    "C75_unpolled"
   ],
   "note": "For the memory backend, whose futures never suspend. That a finished async block panics when polled again is how the compiler builds it."
  },
  {
   "property": "C76",
   "status": "proved",
   "theorems": [
    "C76_no_deadlock"
   ],
   "note": "Lock level: reader-writer locks of the shards of both maps, held across steps as the guards in the code are."
  },
  {
   "property": "C77",
   "status": "partial",
   "theorems": [
    "C77_refuted",
    "C77_partial",
    "C77_closed_partial",
    "C77_open",
    "C77_results_partial"
   ],
   "note": "False of the code: C77_refuted, a subscribe racing an unsubscribe lets two unsubscribes both report success, which no order explains. C77_partial: the subscriptions themselves, get and remove_session are linearizable; C77_closed_partial, C77_open: the closed channels are those of that order. C77_results_partial: without unsubscribe all results are linearizable too, the names of the subscriptions aside."
  },
  {
   "property": "C78",
   "status": "proved",
   "theorems": [
    "C78_port",
    "C78_host"
   ],
   "note": "What is an IP address is an arbitrary function."
  },
  {
   "property": "C79",
   "status": "partial",
   "theorems": [
    "C79_refuted",
    "C79_accepts_partial",
    "C79_serves_partial"
   ],
   "note": "False of the code: the first accept that fails ends the loop and with it the process and its data. Proved: connections are accepted exactly when the socket was bound and no accept has failed; until the end the connections are a run of the server model."
  },
  {
   "property": "C80",
   "status": "partial",
   "theorems": [
    "C80_kept_partial",
    "C80_refuted"
   ],
   "note": "False of the code: no call but config() depends on the settings (for every two settings and every history). Proved: config() always reports the last value set or the default."
  },
  {
   "property": "C81",
   "status": "partial",
   "theorems": [
    "C81_refuted",
    "C81_commands_undisturbed_partial"
   ],
   "note": "False of the code: for all histories, what subscription calls return does not depend on commands or on sessions being dropped. Proved: nor do commands depend on subscriptions."
  },
  {
   "property": "C82",
   "status": "partial",
   "theorems": [
    "C82_counters_partial",
    "C82_refuted"
   ],
   "note": "False of the code for ended sessions, which are never counted. Proved for the other three counters."
  },
  {
   "property": "C83",
   "status": "partial",
   "theorems": [
    "C83_refuted",
    "C83_dropped_partial",
    "C83_whole_partial",
    "C83_finishes",
    "C83_results"
   ],
   "note": "False when a call is dropped while it writes: the part it wrote stays in the stream and the next request follows it (C83_refuted, C83_dropped_partial for any two requests and any cut). C83_whole_partial: whole requests in lock order when no call was dropped or failed to write. C83_finishes, C83_results hold for every run."
  },
  {
   "property": "C84",
   "status": "proved",
   "theorems": [
    "C84_atomic",
    "C84_all_returned",
    "C84_increments",
    "C84_no_deadlock",
    "C84_bounded"
   ],
   "note": "Locks are those of DashMap (a reader-writer lock per shard), whose own code is not modelled; that a command holds at most one of them at any time is read off the code."
  },
  {
   "property": "C85",
   "status": "proved",
   "theorems": [
    "C85_one_key",
    "C85_locked"
   ],
   "note": "For keys that are missing and updated, or updated and deleted, it is false: C52, C87_missing_key_refuted."
  },
  {
   "property": "C86",
   "status": "proved",
   "theorems": [
    "C86_tickets",
    "C86_locked"
   ],
   "note": "The key must be there at the start: for a missing key two clients can get the same number (C52_refuted)."
  },
  {
   "property": "C87",
   "status": "proved",
   "theorems": [
    "C87_appends",
    "C87_missing_key_refuted",
    "C87_locked"
   ],
   "note": "C87_missing_key_refuted: appends to a missing key can be lost although they succeed."
  },
  {
   "property": "C88",
   "status": "proved",
   "theorems": [
    "C88_one_delete",
    "C88_locked"
   ],
   "note": ""
  },
  {
   "property": "C89",
   "status": "proved",
   "theorems": [
    "C89_refines",
    "C89_no_deadlock"
   ],
   "note": "As for C84, that a command holds at most one lock at any time is read off the code."
  },
  {
   "property": "C90",
   "status": "proved",
   "theorems": [
    "C90_bounded",
    "C90_lock_bounded",
    "C90_stops",
    "C90_fair",
    "C90_tasks"
   ],
   "note": "Finitely many clients with finite sequences. Locks are granted to whoever asks when they are free. C90_tasks: every call of tasks that share a memory client returns."
  },
  {
   "property": "C91",
   "status": "partial",
   "theorems": [
    "C91_refuted",
    "C91_partial"
   ],
   "note": "False of the code (C91_refuted): an increment of a missing key can be starved by deletes. C91_partial: at most 7 steps plus one per argument for every other command, and for all commands if no other command takes a key away."
  },
  {
   "property": "C92",
   "status": "proved",
   "theorems": [
    "C92_commute"
   ],
   "note": "Counters must not overflow."
  },
  {
   "property": "C93",
   "status": "proved",
   "theorems": [
    "C93_private_keys",
    "C93_locked"
   ],
   "note": "The client must not ask for statistics; counters must not overflow."
  },
  {
   "property": "C94",
   "status": "proved",
   "theorems": [
    "C94_disjoint",
    "C94_locked"
   ],
   "note": "As C93."
  },
  {
   "property": "C95",
   "status": "proved",
   "theorems": [
    "C95_one_task",
    "C95_own_keys"
   ],
   "note": "Hypotheses: requests within 255 arguments, values within the limits of C42, counters below 2^63; the task does not ask for statistics, which other tasks change."
  },
  {
   "property": "C96",
   "status": "proved",
   "theorems": [
    "C96_tickets"
   ],
   "note": "The key is there at the start (C91 says what happens otherwise); the count stays within 64 bits."
  },
  {
   "property": "C97",
   "status": "proved",
   "theorems": [
    "C97_one_delete"
   ],
   "note": ""
  },
  {
   "property": "C98",
   "status": "proved",
   "theorems": [
    "C98_chains"
   ],
   "note": "For the memory backend. What does not compile (an unknown method, a moved request) is excluded by hypothesis."
  },
  {
   "property": "C99",
   "status": "proved",
   "theorems": [
    "C99_accepts",
    "C99_rejects",
    "C99_asks",
    "C99_unambiguous"
   ],
   "note": "For every input and both builds: the responses returned, the errors given, and the inputs for which more is asked are characterised exactly."
  },
  {
   "property": "C100",
   "status": "proved",
   "theorems": [
    "C100_appends"
   ],
   "note": "The value is returned as it is when it fits the response format."
  },
  {
   "property": "C101",
   "status": "proved",
   "theorems": [
    "C101_line",
    "C101_blames",
    "C101_short",
    "C101_memory",
    "C101_memory_all",
    "C101_server",
    "C101_server_all"
   ],
   "note": "The derived Debug of a value is left open."
  },
  {
   "property": "C102",
   "status": "proved",
   "theorems": [
    "C102_one_key",
    "C102_as_map"
   ],
   "note": "Sets are not among the calls: a set removes the key and inserts it again in two steps, so readers see the gap (C54)."
  },
  {
   "property": "C103",
   "status": "proved",
   "theorems": [
    "C103_any_backend",
    "C103_log",
    "C103_calls",
    "C103_lives",
    "C103_memory"
   ],
   "note": "Scheduling of polls by an executor (wakers) is not modelled: polls may come at any time. In the text, 'kind of value' only matters for typed requests; a backend that returns another kind makes them panic (unreachable!)."
  },
  {
   "property": "C104",
   "status": "proved",
   "theorems": [
    "C104_prefix",
    "C104_nobody_waits",
    "C104_broken",
    "C104_data"
   ],
   "note": "ServerWrites is the server with write_all spread over time; the messages are cut as in C39."
  },
  {
   "property": "C105",
   "status": "partial",
   "theorems": [
    "C105_refuted",
    "C105_misdescribed",
    "C105_partial"
   ],
   "note": "The documentation is wrong on three points (C105_refuted, and C105_misdescribed for every history). Proved: all other documented calls, after every history within the limits of C42."
  },
  {
   "property": "C106",
   "status": "proved",
   "theorems": [
    "C106_upgrade",
    "C106_never_back",
    "C106_receive",
    "C106_send",
    "C106_for_good"
   ],
   "note": "The library's part is assumed: Arc and Weak count, and a futures-intrusive channel closes on close, on its last sender's drop and on its last receiver's drop. Updates sent through the channel are not modelled: the engine sends none (C81)."
  },
  {
   "property": "C107",
   "status": "partial",
   "theorems": [
    "C107_sent",
    "C107_refuted",
    "C107_kept_partial",
    "C107_suffix_partial"
   ],
   "note": "At most 97 bytes are sent per line, and that is reached (statistics with three counters). The memory bound is false of the code: read_until appends to `input` without limit until a newline arrives, so a peer that sends none makes the server keep any amount. Proved instead: what a reading task keeps is exactly the unfinished message, and in every state that is not closed it is a suffix of what was received."
  },
  {
   "property": "C108",
   "status": "partial",
   "theorems": [
    "C108_refuted",
    "C108_slips_refuted",
    "C108_slips_memory",
    "C108_partial"
   ],
   "note": "False of the code: more than 256 arguments panic instead of being reported (set reports it only when the number of items is 255 modulo 256), and in a release build exactly 256 arguments go through: in memory the call works, to a server a request with argument count 0 is written. Proved: the exact outcome of every call with more than 255 arguments, none of them empty; apart from that one size nothing is changed or sent."
  },
  {
   "property": "C109",
   "status": "partial",
   "theorems": [
    "C109_partial",
    "C109_more_refuted",
    "C109_fewer_refuted",
    "C109_left_out_partial"
   ],
   "note": "False of append and set, which declare one argument and read them all, and of delete and length, which declare an argument and read none (C109_more_refuted, C109_fewer_refuted). C109_partial is the equivalence for the twelve others. Leaving something out fails except for append, delete, length and echo (C109_left_out_partial)."
  },
  {
   "property": "C110",
   "status": "partial",
   "theorems": [
    "C110_refuted",
    "C110_stored_refuted",
    "C110_connect_refuted",
    "C110_carried_partial",
    "C110_bounded_partial",
    "C110_finishes_partial"
   ],
   "note": "False of the code: whatever is called, every call that returns reports an error and nothing is ever stored (C110_refuted, C110_stored_refuted), because the server waits for a newline that clients do not send and the client reads into an empty buffer; Client::connect panics when the connection cannot be made (C110_connect_refuted). What holds: the server gets a beginning of what the client wrote, in order (C110_carried_partial), answers at most once for each newline in it (C110_bounded_partial), and every call can end whatever the server and the network do (C110_finishes_partial)."
  },
  {
   "property": "C111",
   "status": "partial",
   "theorems": [
    "C111_exists_refuted",
    "C111_stats_refuted",
    "C111_length_refuted",
    "C111_true_partial",
    "C111_false_partial",
    "C111_stays_partial",
    "C111_length_partial",
    "C111_append_partial",
    "C111_stats_partial"
   ],
   "note": "False of the code: exists answers true for two keys that were never there together, stats shows numbers that were never true together, length reports a different type, which it does in no state (C111_exists_refuted, C111_stats_refuted, C111_length_refuted). What holds: true means that each key was there at some moment of the call; every other answer of exists and is, and every answer when keys stay, is the one of a single moment; so are length and keys unless they report a different type, and append on a key that keeps its type; each number of stats is the one of some moment."
  },
  {
   "property": "C112",
   "status": "proved",
   "theorems": [
    "C112_stored",
    "C112_keys",
    "C112_answered",
    "C112_locked",
    "C112_tasks"
   ],
   "note": "Numbers are not traced: a stored integer or float is the result of arithmetic (C21-C23, C73, C86). Stats answers are about the server itself. C112_tasks: a value that does not fit the response format (C14, C15) can be read back as another one, so what a call returns is the value answered only when that is sound."
  },
  {
   "property": "C113",
   "status": "proved",
   "theorems": [
    "C113_read",
    "C113_one",
    "C113_print",
    "C113_shortest",
    "C113_round_trip",
    "C113_typed",
    "C113_refused",
    "C113_printed"
   ],
   "note": "The library functions are modelled by their documented results, not their algorithms; words of more than 65,000 bytes with exponents of six digits, where the library stops counting, are left out. NaN is printed as NaN whatever its payload."
  },
  {
   "property": "C114",
   "status": "proved",
   "theorems": [
    "C114_locked_outcomes",
    "C114_locked_same_type",
    "C114_winner",
    "C114_between",
    "C114_outcomes",
    "C114_same_type",
    "C114_locked"
   ],
   "note": "Panics while a value is written to the answer are excluded by hypothesis in C114_winner. C114_between also says what overwriting leaves visible in between, see C54."
  },
  {
   "property": "C115",
   "status": "proved",
   "theorems": [
    "C115_one",
    "C115_locked"
   ],
   "note": "With locks, what a key holds is claimed while nobody has its shard locked for writing."
  },
  {
   "property": "C116",
   "status": "proved",
   "theorems": [
    "C116_sets",
    "C116_same_kind"
   ],
   "note": "Values are such that the client can decode them (C42)."
  },
  {
   "property": "C117",
   "status": "proved",
   "theorems": [
    "C117_one"
   ],
   "note": ""
  },
  {
   "property": "C118",
   "status": "proved",
   "theorems": [
    "C118_counter",
    "C118_log",
    "C118_counter_locked",
    "C118_log_locked",
    "C118_tasks_counter",
    "C118_tasks_log"
   ],
   "note": "Counters are integers; amounts are such that the sum fits 64 bits. Values returned by tasks are such that the client can decode them (C42)."
  },
  {
   "property": "C119",
   "status": "proved",
   "theorems": [
    "C119_stats",
    "C119_stats_locked",
    "C119_tasks"
   ],
   "note": "No command changes the number of sessions; sessions added meanwhile are the subject of C82."
  },
  {
   "property": "C120",
   "status": "proved",
   "theorems": [
    "C120_counter",
    "C120_log",
    "C120_kept",
    "C120_counter_locked",
    "C120_log_locked",
    "C120_tasks_counter",
    "C120_tasks_log"
   ],
   "note": "That a returned call can be lost at all is what C52 refutes; C85 to C88 and C118 are about keys that are there."
  },
  {
   "property": "C121",
   "status": "proved",
   "theorems": [
    "C121_counter",
    "C121_log",
    "C121_kept",
    "C121_counter_locked",
    "C121_log_locked",
    "C121_tasks_counter",
    "C121_tasks_log"
   ],
   "note": "That a returned call can be lost at all is what C52 refutes; C120 is the case in which nothing is there at the beginning and nothing takes the key away. Tasks are told the value if it can be sent (sound, see ClientSpec); the empty list, say, cannot."
  },
  {
   "property": "C122",
   "status": "partial",
   "theorems": [
    "C122_set_refuted",
    "C122_map_refuted",
    "C122_length_refuted",
    "C122_nothing_refuted",
    "C122_something_partial",
    "C122_within_partial",
    "C122_before_partial",
    "C122_fair_before_partial",
    "C122_fair_partial"
   ],
   "note": "False of the code (C122_set_refuted, C122_map_refuted, C122_length_refuted, C122_nothing_refuted) for a message whose header announces less than its value takes. C122_within_partial and C122_before_partial have the exact amount for every sequence of bytes; C122_fair_partial and C122_fair_before_partial the claim wherever the amount is what is missing, in particular always while the message is incomplete by its header; C122_something_partial that only a message ending before a length gets 0."
  },
  {
   "property": "C123",
   "status": "proved",
   "theorems": [
    "C123_one",
    "C123_question",
    "C123_tasks",
    "C123_tasks_question",
    "C123_get"
   ],
   "note": "C123_one and C123_question with the locks of the map; C123_tasks, C123_tasks_question and C123_get for tasks that share a memory client."
  },
  {
   "property": "C124",
   "status": "proved",
   "theorems": [
    "C124_one",
    "C124_rename",
    "C124_apart",
    "C124_tasks",
    "C124_add",
    "C124_tasks_rename",
    "C124_tasks_apart"
   ],
   "note": "C124_one, C124_rename and C124_apart with the locks of the map; C124_tasks, C124_add, C124_tasks_rename and C124_tasks_apart for tasks that share a memory client. A set removes the old value first and writes the new one after that, so what it came upon is what was there when it wrote, which is its own default unless another call came between. Ordinary keys are not empty and do not begin with the reserved prefix."
  },
  {
   "property": "C125",
   "status": "proved",
   "theorems": [
    "C125_ledger",
    "C125_untouched",
    "C125_stays",
    "C125_all",
    "C125_each",
    "C125_tasks",
    "C125_tasks_each",
    "C125_tasks_stays",
    "C125_sets"
   ],
   "note": "C125_ledger with the locks of the map, C125_untouched and C125_all from it, C125_each for each change by itself; C125_tasks, C125_tasks_each and C125_sets for tasks that share a memory client. The blank value can take the place of a value that another call created in between, since looking whether a key is there and creating it are two steps (C52)."
  },
  {
   "property": "C126",
   "status": "proved",
   "theorems": [
    "C126_value",
    "C126_same",
    "C126_line",
    "C126_run"
   ],
   "note": "With the printing of floats of C113. That texts of collections lose their end is C69."
  },
  {
   "property": "C127",
   "status": "partial",
   "theorems": [
    "C127_refuted",
    "C127_partial",
    "C127_settled_partial",
    "C127_tasks_partial",
    "C127_tasks_settled_partial"
   ],
   "note": "False of the code: C127_refuted has a key that holds a list, every call that sets, deletes or renames it having returned, and that holds an integer later, because an increment that had found no value put its own there. C127_partial: a key that is there at the start and that no call sets, deletes or renames is always there with its type. C127_settled_partial: the same from any moment on at which the key is there and no running call has found it missing before. C127_tasks_partial and C127_tasks_settled_partial: for tasks that share a memory client. Missing: keys that are created while an addition to them runs."
  },
  {
   "property": "C128",
   "status": "proved",
   "theorems": [
    "C128_adds",
    "C128_renames",
    "C128_own_keys",
    "C128_tasks_adds",
    "C128_tasks_renames",
    "C128_tasks_own_keys"
   ],
   "note": "C128_adds, C128_renames and C128_own_keys with the locks of the map; C128_tasks_adds, C128_tasks_renames and C128_tasks_own_keys for tasks that share a memory client. That a key missing at some moment makes a difference is C127_refuted."
  },
  {
   "property": "C129",
   "status": "proved",
   "theorems": [
    "C129_left",
    "C129_read",
    "C129_set",
    "C129_set_get",
    "C129_add",
    "C129_add_get",
    "C129_returned",
    "C129_returned_get",
    "C129_delete",
    "C129_delete_get",
    "C129_rename"
   ],
   "note": "C129_left for every call that changes a key, C129_read for a get; C129_returned and C129_returned_get for every set, append, increment and decrement; C129_set, C129_set_get, C129_add, C129_add_get, C129_delete, C129_delete_get and C129_rename."
  },
  {
   "property": "C130",
   "status": "partial",
   "theorems": [
    "C130_refuted",
    "C130_blank_refuted",
    "C130_error_partial",
    "C130_nothing",
    "C130_adds_partial",
    "C130_tasks_partial",
    "C130_tasks_nothing",
    "C130_unharmed",
    "C130_read"
   ],
   "note": "False of the code: a set removes the value before it puts the new one, and reports an error if another client sets a value of another type in between (C130_refuted); and a call that adds to a missing key leaves the blank value if it then fails, as an increment of a float does (C130_blank_refuted). C130_error_partial says that these are the only changes. For all other commands, deletes and renames among them, C130_nothing proves it in full, and C130_unharmed and C130_read for any mix of failing calls that are no sets on a key that is there."
  },
  {
   "property": "C131",
   "status": "partial",
   "theorems": [
    "C131_refuted",
    "C131_once_partial",
    "C131_adds",
    "C131_last",
    "C131_did",
    "C131_rename",
    "C131_tasks_partial",
    "C131_tasks_adds",
    "C131_tasks_last",
    "C131_tasks_did",
    "C131_tasks_rename",
    "C131_tasks_moved"
   ],
   "note": "False of the code for sets: a set of a key that is there takes the value away, puts the blank value there and then the new one, three changes that others can see (C131_refuted); and an addition to a missing key puts the blank value there first. C131_once_partial says that apart from those there is at most one, and C131_last that it is the last; C131_did, that a call that succeeds does make it. C131_adds proves it in full for all commands that neither set nor rename and do not find missing the key that they add to, and C131_rename for renames."
  }
 ]
}