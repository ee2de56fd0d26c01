{
 "claims": [
  {
   "property": "C01",
   "status": "proved",
   "theorems": [
    "C01_queue_is_fifo",
    "C01_queue_is_fifo_any_history",
    "C01_list_unique"
   ],
   "note": "Proved for every non-zero page size (negative ones mean no LIMIT in SQLite)."
  },
  {
   "property": "C02",
   "status": "proved",
   "theorems": [
    "C02_key_held_once",
    "C02_first_copy_wins"
   ],
   "note": "Over all histories with restarts and crashes, every page size."
  },
  {
   "property": "C03",
   "status": "proved",
   "theorems": [
    "C03_crash_loss_bounded"
   ],
   "note": "Crash between calls; crashes inside calls are C07."
  },
  {
   "property": "C04",
   "status": "proved",
   "theorems": [
    "C04_restart_keeps_entries",
    "C04_restart_keeps_both_queues"
   ],
   "note": ""
  },
  {
   "property": "C05",
   "status": "partial",
   "theorems": [
    "C05_restart_keeps_order_refuted",
    "C05_restart_keeps_order_partial",
    "C05_order_after_restart"
   ],
   "note": "False of the code: the back page is loaded in descending order. Exact characterisation: order is kept iff page_size = 1 or at most page_size+1 entries are queued."
  },
  {
   "property": "C06",
   "status": "proved",
   "theorems": [
    "C06_no_exception",
    "C06_second_shut_down_raises"
   ],
   "note": "Also shows that shutting the same object down twice does raise IntegrityError."
  },
  {
   "property": "C07",
   "status": "proved",
   "theorems": [
    "C07_crash_anywhere",
    "C07_crash_in_start_up"
   ],
   "note": ""
  },
  {
   "property": "C08",
   "status": "partial",
   "theorems": [
    "C08_first_keys_complete_refuted",
    "C08_first_keys_prefix_partial",
    "C08_first_keys_after_restart_partial"
   ],
   "note": "False of the code (only the front page is listed, as its TODO says). Proved: always a prefix in order; complete up to page_size after a restart. Missing: completeness."
  },
  {
   "property": "C09",
   "status": "partial",
   "theorems": [
    "C09_nonempty_yields_refuted",
    "C09_nonempty_yields_partial"
   ],
   "note": "False for page_size = 0, proved for every other page size."
  },
  {
   "property": "C10",
   "status": "partial",
   "theorems": [
    "C10_reprocess_all_conserves_refuted",
    "C10_reprocess_all_exact",
    "C10_reprocess_all_conserves_partial",
    "C10_page_size_zero_raises"
   ],
   "note": "False of the code when a key is in both queues (the error entry is dropped). Exact effect proved for every state, conservation proved when the key sets are disjoint."
  },
  {
   "property": "C11",
   "status": "partial",
   "theorems": [
    "C11_reprocess_one_moves_refuted",
    "C11_reprocess_one_exact",
    "C11_reprocess_one_partial"
   ],
   "note": "False of the code when the key is also pending; exact effect proved for every state."
  },
  {
   "property": "C12",
   "status": "partial",
   "theorems": [
    "C12_found_or_missing_refuted",
    "C12_found_or_missing_partial",
    "C12_sender_error_queue_partial"
   ],
   "note": "False of the code: a payload that is an empty JSON object is reported missing although it was popped or moved. Proved for every other payload, with the effect on both queues, for endpoints and senders."
  },
  {
   "property": "C13",
   "status": "proved",
   "theorems": [
    "C13_attempts",
    "C13_exhausted_requests_are_in_error",
    "C13_attempts_across_restart"
   ],
   "note": "Over all schedules of the event loop; keys distinct (C31-C33)."
  },
  {
   "property": "C14",
   "status": "proved",
   "theorems": [
    "C14_exactly_one_place",
    "C14_accounting"
   ],
   "note": ""
  },
  {
   "property": "C15",
   "status": "partial",
   "theorems": [
    "C15_raising_not_lost_refuted",
    "C15_loses_only_that_request_partial"
   ],
   "note": "False of the code: a request whose function or middleware raises is popped and never put back. Proved: nothing else is lost."
  },
  {
   "property": "C16",
   "status": "proved",
   "theorems": [
    "C16_one_task",
    "C16_queue_order"
   ],
   "note": ""
  },
  {
   "property": "C17",
   "status": "partial",
   "theorems": [
    "C17_processing_pause_effective",
    "C17_receiving_pause_effective_refuted",
    "C17_receiving_pause_effective_partial"
   ],
   "note": "Processing: proved. Receiving: a request suspended in a middleware before the pause is still accepted; proved that no other is."
  },
  {
   "property": "C18",
   "status": "partial",
   "theorems": [
    "C18_no_stranded_request_refuted",
    "C18_no_stranded_request_partial",
    "C18_next_event_wakes"
   ],
   "note": "False of the code: the request is pushed by a separate task after the check for a running processing task. Proved for schedules in which each push happens while a processing task is live."
  },
  {
   "property": "C19",
   "status": "partial",
   "theorems": [
    "C19_pause_survives_reprocessing_refuted",
    "C19_sender_pause_survives_reprocessing_refuted",
    "C19_reprocessing_unpauses_partial",
    "C17_processing_pause_effective",
    "C51_pause_effective",
    "C19_failed_reprocessing_pauses",
    "C19_sender_failed_reprocessing_pauses"
   ],
   "note": "False of the code: both reprocess commands unpause unconditionally, for endpoints and senders, and one that raises leaves them paused. Proved: nothing else but unpause does."
  },
  {
   "property": "C20",
   "status": "partial",
   "theorems": [
    "C20_paused_is_busy_refuted",
    "C20_paused_is_refused_partial"
   ],
   "note": "False of the code: the exception for a paused endpoint is not among those the server knows, so the status is 999 instead of 500. Proved: the request is refused without reaching the queue."
  },
  {
   "property": "C21",
   "status": "partial",
   "theorems": [
    "C21_closes_at_most_once_refuted",
    "C21_restart_finds_everything_refuted",
    "C21_close_is_safe_partial",
    "C21_shut_down_completes",
    "C21_teardown"
   ],
   "note": "False of the code in two ways (see the refutations). Proved: the first close is safe, the shut-down completes, the application's own teardown closes exactly once."
  },
  {
   "property": "C22",
   "status": "proved",
   "theorems": [
    "C22_outcome_classified",
    "C22_attempts",
    "C22_failures_are_in_error"
   ],
   "note": "Over all schedules; keys distinct."
  },
  {
   "property": "C23",
   "status": "partial",
   "theorems": [
    "C23_accounting",
    "C23_exactly_one_place_any_keys_refuted",
    "C23_exactly_one_place_any_schedule_refuted",
    "C23_exactly_one_place_partial"
   ],
   "note": "False of the code when a caller reuses a span key (dropped silently) or the sending task is cancelled. Proved otherwise; the accounting of dropped and lost messages is proved for every run."
  },
  {
   "property": "C24",
   "status": "partial",
   "theorems": [
    "C24_only_cancellation_escapes",
    "C24_bad_requests",
    "C24_status_tells_the_cause_refuted",
    "C24_status_by_first_failure_partial"
   ],
   "note": "That the status tells the cause is false of the code: a handler that itself raises JSONDecodeError or ValidationError is reported as a bad request. Proved: exactly one response unless a cancellation escapes; status by the class of the first exception."
  },
  {
   "property": "C25",
   "status": "proved",
   "theorems": [
    "C25_values_handed_on",
    "C25_stages_in_order"
   ],
   "note": ""
  },
  {
   "property": "C26",
   "status": "proved",
   "theorems": [
    "C26_registering",
    "C26_first_registered_is_found",
    "C26_table_routes"
   ],
   "note": ""
  },
  {
   "property": "C27",
   "status": "proved",
   "theorems": [
    "C27_replies_in_order",
    "C27_chunking_is_irrelevant",
    "C27_lines"
   ],
   "note": ""
  },
  {
   "property": "C28",
   "status": "partial",
   "theorems": [
    "C28_datagram_attempts",
    "C28_stream_attempts_refuted",
    "C28_stream_attempts_partial",
    "C28_stream_at_most",
    "C28_persistent_at_most",
    "C28_what_is_retried",
    "C28_datagram_sends"
   ],
   "note": "Proved in full for datagram clients. For stream clients false of the code when another call on the same client succeeds in between (shared success flag); proved otherwise, and the bound on attempts always."
  },
  {
   "property": "C29",
   "status": "partial",
   "theorems": [
    "C29_documented_refuted",
    "C29_documented_partial",
    "C29_only_success_returns",
    "C29_otherwise"
   ],
   "note": "False of the code for status 200 (AttributeError instead of ClientDeniedException); proved for every other status."
  },
  {
   "property": "C30",
   "status": "partial",
   "theorems": [
    "C30_transient",
    "C30_persistent_refuted",
    "C30_persistent_without_timeout_refuted",
    "C30_persistent_partial",
    "C30_datagram_refuted",
    "C30_datagram_partial"
   ],
   "note": "True for transient clients. False of persistent and datagram clients after a timeout (and, for persistent ones, when connections are opened concurrently); proved when these do not happen."
  },
  {
   "property": "C31",
   "status": "proved",
   "theorems": [
    "C31_bytes_roundtrip",
    "C31_bytes_injective",
    "C31_bytes_surjective",
    "C31_equality"
   ],
   "note": ""
  },
  {
   "property": "C32",
   "status": "proved",
   "theorems": [
    "C32_text_roundtrip",
    "C32_text_injective",
    "C32_span_id_roundtrip"
   ],
   "note": "ASCII text."
  },
  {
   "property": "C33",
   "status": "partial",
   "theorems": [
    "C33_only_canonical_refuted",
    "C33_accepted_without_bytes",
    "C33_hex_accepted_partial",
    "C33_only_hex_partial",
    "C33_accepted_range_partial",
    "C33_accepted_exactly_partial",
    "C33_rejections_are_value_errors"
   ],
   "note": "False of the code: signs, 0x, underscores and white space are accepted. Proved: exactly the 16-character base-16 numerals (declaratively specified) are accepted, with their value, everything else raises ValueError; 16 hex digits are accepted with their value and nothing else is accepted among texts without those characters."
  },
  {
   "property": "C34",
   "status": "partial",
   "theorems": [
    "C34_bounded_refuted",
    "C34_size_refuted",
    "C34_bounded_partial",
    "C34_excess_partial",
    "C34_key_error_partial"
   ],
   "note": "False of the code: max_size 1 fails at the second key; a deletion lets the cache grow beyond max_size; pop can fail on a cache that holds keys. Proved for max_size >= 2 without removals; with removals the excess is at most their number."
  },
  {
   "property": "C35",
   "status": "proved",
   "theorems": [
    "C35_last_value",
    "C35_member_history",
    "C35_member_step"
   ],
   "note": "For every max_size and history, also after failures."
  },
  {
   "property": "C36",
   "status": "partial",
   "theorems": [
    "C36_lru_order_refuted",
    "C36_lru_order_partial"
   ],
   "note": "False of the code when the first key is read before the cache is full, or a new key is stored after a removal. Proved as a refinement of a recency-ordered list for all other histories."
  },
  {
   "property": "C37",
   "status": "proved",
   "theorems": [
    "C37_history",
    "C37_endpoint",
    "C37_bounded_refuted",
    "C37_bounded_partial"
   ],
   "note": "For every configured length and every run: the history is the newest h of all reports. If the length is lowered while running the history can stay longer than the new setting (C37_bounded_refuted); it never exceeds the largest length configured."
  },
  {
   "property": "C38",
   "status": "partial",
   "theorems": [
    "C38_counters_refuted",
    "C38_counters_partial",
    "C38_no_exception_partial",
    "C38_query_partial",
    "C38_gathered",
    "C38_own_values_partial"
   ],
   "note": "False of the code for names below \"application\", which every query and gathering throws away. Proved, for arbitrary numbers and arithmetic, for all prefix-free sets of names that avoid the keeper's own names; queue sizes and percentiles included."
  },
  {
   "property": "C39",
   "status": "partial",
   "theorems": [
    "C39_percentiles_refuted",
    "C39_percentiles_partial",
    "C39_not_called"
   ],
   "note": "False of the code: quantiles are extrapolated beyond the maximum for fewer than 19 (p95) or 99 (p99) calls. Lower bound and order always hold; the excess is at most 0.97 of the spread. Over rationals; rounding of floats is not modelled. An endpoint shows negative percentiles exactly if it was not called."
  },
  {
   "property": "C40",
   "status": "proved",
   "theorems": [
    "C40_report",
    "C40_case",
    "C40_never_negative",
    "C40_at_most_raised_refuted",
    "C40_at_most_raised_partial"
   ],
   "note": "The report is exact for every sequence of raises and clears (upper-casing is a parameter, assumed idempotent). The code subtracts whatever a clear asks for, so a negative number adds: C40_at_most_raised_refuted; with non-negative numbers the count never exceeds the number of raises."
  },
  {
   "property": "C41",
   "status": "proved",
   "theorems": [
    "C41_precedence",
    "C41_total"
   ],
   "note": "For every environment, setting and default."
  },
  {
   "property": "C42",
   "status": "partial",
   "theorems": [
    "C42_order",
    "C42_flush",
    "C42_rotation",
    "C42_bound_refuted",
    "C42_bound_partial"
   ],
   "note": "Order, no loss and flush proved. The bound on unwritten records is false of the code after the buffer size is lowered while INFO is not logged; proved while it is."
  },
  {
   "property": "C43",
   "status": "partial",
   "theorems": [
    "C43_at_least_once_refuted",
    "C43_restart_refuted",
    "C43_inode_refuted",
    "C43_at_least_once_partial",
    "C43_in_order_partial",
    "C43_exactly_once_partial",
    "C43_bad_lines_skipped_refuted",
    "C43_bad_line_stops"
   ],
   "note": "As stated it is false of the code: a file that is rotated away and rotated again between two polls is never read, the same goes for a rotation while the shipper is down, a fresh file that reuses the saved inode number is read from the old offset, and one complete line that is not JSON stops the shipper for good. Proved for every history in which no rotation is missed (predicate calm), with kills, restarts and failing posts anywhere: every complete line comes through at least once and in order, exactly once when there are no kills and no post fails after it arrived. Modelled: one tailed path; the multi-file loop runs one such tail per path."
  },
  {
   "property": "C44",
   "status": "partial",
   "theorems": [
    "C44_every_endpoint_refuted",
    "C44_exact_partial",
    "C44_exact_untyped_partial"
   ],
   "note": "False of the code for route keys without a dot or with more than one, which are dropped. Proved: the metrics are exactly the expected ones, for every report."
  },
  {
   "property": "C45",
   "status": "partial",
   "theorems": [
    "C45_words",
    "C45_words_unique",
    "C45_width",
    "C45_breaks",
    "C45_greedy",
    "C45_no_blank_refuted",
    "C45_no_blank_partial",
    "C45_blank_line",
    "C45_fill"
   ],
   "note": "All proved for ASCII white space, except that a blank line is added before a word longer than the width at the start of a line (C45_no_blank_refuted); none otherwise."
  },
  {
   "property": "C46",
   "status": "partial",
   "theorems": [
    "C46_exclusive_refuted",
    "C46_exclusive_partial",
    "C46_users_refuted",
    "C46_refused_partial",
    "C46_removed_refuted"
   ],
   "note": "False of the code: two simultaneous starts both run, a start by another user removes a live lock, and the lock file is never removed at shut-down. Proved for starts one after another by users who may signal each other."
  },
  {
   "property": "C47",
   "status": "proved",
   "theorems": [
    "C47_attempts_get_stored_metadata",
    "C47_metadata_merged"
   ],
   "note": ""
  },
  {
   "property": "C48",
   "status": "partial",
   "theorems": [
    "C48_arguments_refuted",
    "C48_arguments_partial",
    "C48_nothing_unexpected"
   ],
   "note": "False of the code for a function with **kwargs, which is given nothing. Proved for every other signature."
  },
  {
   "property": "C49",
   "status": "partial",
   "theorems": [
    "C49_on_disk_stays_recoverable_refuted",
    "C49_on_disk_stays_recoverable_partial"
   ],
   "note": "False of the code: loading a page deletes it from the file while its entries are still queued. Proved for every other call."
  },
  {
   "property": "C50",
   "status": "proved",
   "theorems": [
    "C50_one_at_a_time",
    "C50_queue_order",
    "C50_no_stranded_message",
    "C50_everything_gets_delivered"
   ],
   "note": ""
  },
  {
   "property": "C51",
   "status": "partial",
   "theorems": [
    "C51_pause_effective",
    "C51_close_is_safe",
    "C51_shut_down_completes",
    "C51_teardown",
    "C51_closes_at_most_once_refuted"
   ],
   "note": "Exactly-once closing is false of the code when a message is enqueued after the shut-down; the rest is proved."
  },
  {
   "property": "C52",
   "status": "partial",
   "theorems": [
    "C52_every_line_answered_refuted",
    "C52_every_line_answered_partial",
    "C52_never_stuck"
   ],
   "note": "False of the code: undecodable bytes, a line over the reader's limit or an exception while answering end the serving task without an answer. Proved when none of these occurs."
  },
  {
   "property": "C53",
   "status": "partial",
   "theorems": [
    "C53_datagrams",
    "C53_progress",
    "C53_answered_or_reported",
    "C53_enquiry_answered_refuted"
   ],
   "note": "Order, addressing and isolation are proved for every schedule; that an ENQ datagram is answered by ACK is false (the server tests for ACK)."
  },
  {
   "property": "C54",
   "status": "proved",
   "theorems": [
    "C54_extra"
   ],
   "note": "For every environment. Keys of other applications appear as machine-level settings, as the statement's definition of machine level says."
  },
  {
   "property": "C55",
   "status": "partial",
   "theorems": [
    "C55_addresses_refuted",
    "C55_addresses_partial",
    "C55_socket"
   ],
   "note": "False of the code for an empty host or port, which is silently ignored; everything else proved. int() is modelled for ASCII."
  },
  {
   "property": "C56",
   "status": "partial",
   "theorems": [
    "C56_isolation_refuted",
    "C56_isolation_partial",
    "C56_isolation_app_partial",
    "C56_sockets_partial"
   ],
   "note": "False of the code because names are joined with underscores; proved for application names without underscores (instance ids may have them)."
  },
  {
   "property": "C57",
   "status": "partial",
   "theorems": [
    "C57_distinct_refuted",
    "C57_distinct_partial"
   ],
   "note": "False of the code: a.b and a_b become one metric. Proved for keys without underscore, dot and dash."
  },
  {
   "property": "C58",
   "status": "partial",
   "theorems": [
    "C58_health_refuted",
    "C58_health_partial",
    "C58_names"
   ],
   "note": "False of the code: a custom statistic whose first key has a dash raises in prometheus_client (with Prometheus's own rules for names), which marks the service dead. Proved for all services with different identities and allowed names."
  },
  {
   "property": "C59",
   "status": "partial",
   "theorems": [
    "C59_discovery_refuted",
    "C59_addresses_partial",
    "C59_sockets_partial",
    "C59_sound"
   ],
   "note": "False of the code for DEFAULT socket names, which discovery takes literally; proved for all other addresses."
  },
  {
   "property": "C60",
   "status": "partial",
   "theorems": [
    "C60_restart_refuted",
    "C60_blocked_for_good",
    "C60_reused_refuted",
    "C60_own_pid_refuted",
    "C60_restart_partial"
   ],
   "note": "False of the code: a crash between creating and writing the lock file blocks every later start, and a reused process id (even the new process's own) counts as the running instance. Proved when the id in the file is in use by nobody."
  },
  {
   "property": "C61",
   "status": "partial",
   "theorems": [
    "C61_own_span_refuted",
    "C61_own_span_partial",
    "C61_some_span_partial"
   ],
   "note": "False of the code: lines get the span key that is current when they are flushed. Proved for buffer sizes up to 1."
  },
  {
   "property": "C62",
   "status": "partial",
   "theorems": [
    "C62_ends_refuted",
    "C62_once_refuted",
    "C62_lost_refuted",
    "C62_between_partial",
    "C62_inside_partial"
   ],
   "note": "False of the code: a signal inside emit is swallowed, and one between records makes the flush at shut-down write them again. What does happen is proved for every instant."
  },
  {
   "property": "C63",
   "status": "proved",
   "theorems": [
    "C63_round_trip",
    "C63_injective",
    "C63_no_control_bytes",
    "C63_read_is_proper"
   ],
   "note": "For the JSON values of the model: strings (as UTF-8 bytes), integers, booleans, null, lists, dicts; floating point numbers are not modelled."
  },
  {
   "property": "C64",
   "status": "proved",
   "theorems": [
    "C64_request",
    "C64_one_line",
    "C64_response",
    "C64_answer",
    "C64_only_readable_keys",
    "C64_connection",
    "C64_white_space",
    "C64_nothing_before"
   ],
   "note": "Built on C27 (framing), C31-C32 (span keys) and C63. C64_connection is for requests within the reader's length limit (C52 says what longer ones do). White space is what str.strip removes, for ASCII."
  },
  {
   "property": "C65",
   "status": "partial",
   "theorems": [
    "C65_time_refuted",
    "C65_time_partial",
    "C65_distinct",
    "C65_numerals_are_unambiguous"
   ],
   "note": "False of the code from July 2554 on, where nanoseconds since 1970 no longer fit 64 bits; proved for every moment before, with the calendar functions of Lib/datetime.py and timegm modelled."
  },
  {
   "property": "C66",
   "status": "partial",
   "theorems": [
    "C66_content",
    "C66_attributes_of_any_line",
    "C66_any_line",
    "C66_any_line_severity",
    "C66_any_line_resource",
    "C66_lossless_refuted",
    "C66_lossless_partial",
    "C66_batch",
    "C66_resource_refuted",
    "C66_resource_partial"
   ],
   "note": "False of the code in two ways: the traceback of an exception is not written, and a file that two applications write is reported under the one that wrote the first line of the batch. The rest is proved."
  },
  {
   "property": "C67",
   "status": "proved",
   "theorems": [
    "C67_delivered",
    "C67_batches_build",
    "C67_lines_convert"
   ],
   "note": "Under the conditions of C43_exactly_once_partial, which are part of the quantifier."
  },
  {
   "property": "C68",
   "status": "partial",
   "theorems": [
    "C68_one_span",
    "C68_in_trace_refuted",
    "C68_in_trace_partial",
    "C68_failed_refuted",
    "C68_nested_refuted",
    "C68_ended_partial",
    "C68_memory_grows",
    "C68_memory_refuted",
    "C68_memory_partial"
   ],
   "note": "False of the code: a zero id, which the server accepts, starts a new trace; the span of a request whose handler raises is never ended and its entry never removed, without limit; of two requests with one span key under way at once (a call back) one span is never ended. Proved otherwise."
  },
  {
   "property": "C69",
   "status": "partial",
   "theorems": [
    "C69_one_span",
    "C69_parent_refuted",
    "C69_parent_partial",
    "C69_without_receive_span",
    "C69_raised_refuted",
    "C69_two_queues_refuted",
    "C69_ended_partial"
   ],
   "note": "False of the code when requests or attempts with one span key overlap, and of handlers that raise (the span is never ended); proved otherwise."
  },
  {
   "property": "C70",
   "status": "partial",
   "theorems": [
    "C70_first10_refuted",
    "C70_reprocess_all_refuted",
    "C70_pop_request_refuted",
    "C70_queue_partial",
    "C70_answer_partial",
    "C70_first10_partial",
    "C70_only_the_named",
    "C70_endpoint_has_a_view"
   ],
   "note": "False of the code: the first ten keys are not all listed, reprocessing ends a pause, and popping an entry whose data is empty or no longer valid takes it out and does not show it. Everything else is proved, for every history."
  },
  {
   "property": "C71",
   "status": "partial",
   "theorems": [
    "C71_first10_refuted",
    "C71_reprocess_all_refuted",
    "C71_pop_request_refuted",
    "C71_queue_partial",
    "C71_answer_partial",
    "C71_first10_partial",
    "C71_only_the_named",
    "C71_sender_has_a_view"
   ],
   "note": "As C70."
  },
  {
   "property": "C72",
   "status": "partial",
   "theorems": [
    "C72_bem_refuted",
    "C72_bem_partial",
    "C72_bem_only_what_was_asked",
    "C72_bem_one_action",
    "C72_bem_needs_key",
    "C72_bsm_sends_nothing",
    "C72_bsm_refuted",
    "C72_log_partial",
    "C72_stat_partial"
   ],
   "note": "Servers whose host contains a colon cannot be named (the details are split at every colon), and the tool for sender queues never sends anything: it first reads attributes that its parser does not declare and dies with an AttributeError. The rest is proved: every operation for every other address, for all orders and names of options; nothing that was not asked for; no two operations at once; no item operation without a key. argparse is modelled here without abbreviations, --name=value and values that begin with a dash. C140 has the complete argparse."
  },
  {
   "property": "C73",
   "status": "partial",
   "theorems": [
    "C73_starts",
    "C73_own_files_refuted",
    "C73_own_files_partial",
    "C73_no_file_is_shared",
    "C73_replaced_sender",
    "C73_same_files_after_a_restart",
    "C73_all_are_shut_down"
   ],
   "note": "False for two buffered senders with one route key: the keeper holds only the last, the first never gets a queue, raises AttributeError on every message and is neither listed nor shut down. Proved for all declarations in which buffered senders have different route keys; the other theorems hold without that condition."
  },
  {
   "property": "C74",
   "status": "partial",
   "theorems": [
    "C74_lock_keeps_apart_refuted",
    "C74_instances_apart_refuted",
    "C74_instances_apart_partial",
    "C74_locks_apart_refuted",
    "C74_locks_apart_partial",
    "C74_sockets_apart_partial"
   ],
   "note": "False with dashes in names: instance \"1\" with route key \"eu-orders\" and instance \"1-eu\" with route key \"orders\" share their databases and run at the same time, because their lock files differ; applications \"shop\" instance \"1-eu\" and \"shop-1\" instance \"eu\" have one lock file. Proved when instances have no dash and either application names or route keys have none."
  },
  {
   "property": "C75",
   "status": "partial",
   "theorems": [
    "C75_nothing_is_lost_refuted",
    "C75_three_ways_to_lose",
    "C75_clean_exit_keeps_everything",
    "C75_nothing_is_lost_partial",
    "C75_exits_cleanly",
    "C75_interrupted_start_skips_the_shut_down"
   ],
   "note": "False in three ways: a signal or failure while a TCP or UDS server is still being started (stop() then raises AttributeError before any queue is shut down), a second signal during the shut-down, and a set-up that fails after the first of its two files has been read. Proved: these are the only ways, and exit status 0 always means that nothing is lost."
  },
  {
   "property": "C76",
   "status": "partial",
   "theorems": [
    "C76_signal_ends_refuted",
    "C76_signal_ends_partial",
    "C76_signal_lost",
    "C76_signal_while_sending"
   ],
   "note": "False: the signal is an ordinary Exception raised wherever the program is. In a request it is answered UNHANDLED, in a callback or another task it is dropped, while a message is sent that message goes to the error queue, and the application goes on. Proved for the event loop, the main task and gathered tasks."
  },
  {
   "property": "C77",
   "status": "partial",
   "theorems": [
    "C77_serving_is_set_up",
    "C77_nothing_listens_afterwards",
    "C77_failure_is_reported_refuted",
    "C77_failure_is_reported_partial",
    "C77_failure_waits_for_setup_tasks"
   ],
   "note": "The report is false: for TCP and UDS an AttributeError takes the place of the error, the exit status is 0, and while setup_tasks is running a failure goes unnoticed. Proved: the run ends with a traceback (the right one for UDP), keeping everything; no socket is left open; a serving application is completely set up."
  },
  {
   "property": "C78",
   "status": "partial",
   "theorems": [
    "C78_delivered_was_accepted",
    "C78_accepted_was_enqueued",
    "C78_no_message_is_lost_refuted",
    "C78_no_message_is_lost_partial"
   ],
   "note": "False when callers of the sender use a span key again: the endpoint accepts the second message and drops it while it has the first. Proved for distinct keys, whatever requests and answers are lost or late, as long as no task is cancelled and no user code of the endpoint raises (C15, C17 and C23 say what happens then); what is delivered was accepted, without any assumption."
  },
  {
   "property": "C79",
   "status": "partial",
   "theorems": [
    "C79_at_most_once_refuted",
    "C79_accepted_as_often_as_delivered",
    "C79_at_most_once_partial"
   ],
   "note": "False: after a lost answer the client sends again and the endpoint processes the message a second time. Proved: at most once plus once per failed attempt, for messages no other client sends."
  },
  {
   "property": "C80",
   "status": "partial",
   "theorems": [
    "C80_accepted_in_order_refuted",
    "C80_accepted_in_order_partial"
   ],
   "note": "False after a failed attempt: a request given up may arrive after later ones. Proved for histories without failed attempts and without other clients."
  },
  {
   "property": "C81",
   "status": "partial",
   "theorems": [
    "C81_ipv4_addresses",
    "C81_hostname_refuted",
    "C81_newline_refuted",
    "C81_hostname_partial",
    "C81_hostname_exact",
    "C81_hostname_answers",
    "C81_port_refuted",
    "C81_port_partial",
    "C81_hostname_unicode"
   ],
   "note": "False: the empty text raises IndexError, a newline at the end of a label is accepted, and any number is a port. Proved: IPv4 in full; host names for ASCII texts without newline; exactly what is accepted with newlines; a text is accepted as a port exactly if it is a decimal number. The interpreter's tables of non-ASCII digits are a parameter."
  },
  {
   "property": "C82",
   "status": "partial",
   "theorems": [
    "C82_flatten_refuted",
    "C82_flatten_partial",
    "C82_flatten_exact"
   ],
   "note": "False for keys that contain dots or are empty: entries overwrite each other. Proved for all other keys; for all keys, what is returned is the last entry of each text."
  },
  {
   "property": "C83",
   "status": "partial",
   "theorems": [
    "C83_names_refuted",
    "C83_names_partial",
    "C83_name_is_stable",
    "C83_every_py_is_dropped"
   ],
   "note": "False: ShopApp.py and shop_app.py are the same application. Proved: camel case scripts have different names, snake case scripts too; ASCII letters only."
  },
  {
   "property": "C84",
   "status": "partial",
   "theorems": [
    "C84_accepted_requests_survive_crashes_refuted",
    "C84_accepted_requests_survive_crashes_partial"
   ],
   "note": "False: a crash takes with it the pages in memory and the request in process. Proved: full accounting over any number of lives with any ends, with a bound on what crashes take."
  },
  {
   "property": "C85",
   "status": "proved",
   "theorems": [
    "C85_attempts_and_crashes"
   ],
   "note": "For requests with distinct keys (request identifiers are random). Crash points are between the commits of an event."
  },
  {
   "property": "C86",
   "status": "partial",
   "theorems": [
    "C86_enqueued_messages_survive_crashes_refuted",
    "C86_enqueued_messages_survive_crashes_partial"
   ],
   "note": "False: a crash takes with it the pages in memory and the message being sent. Proved: full accounting over any number of lives with any ends, with a bound on what crashes take."
  },
  {
   "property": "C87",
   "status": "proved",
   "theorems": [
    "C87_attempts_and_crashes"
   ],
   "note": "For messages with distinct keys (span keys are random). Crash points are between the commits of an event."
  },
  {
   "property": "C88",
   "status": "partial",
   "theorems": [
    "C88_answer_or_failure_refuted",
    "C88_answer_or_failure_partial",
    "C88_returned_was_answered",
    "C88_value_of_the_endpoint"
   ],
   "note": "False: a connection that ends inside the response makes the call raise JSONDecodeError, and a call on a client that is used concurrently can raise TypeError. Proved: nothing else can happen, and whatever is returned is the value the endpoint returned for the DTO of this request. For requests whose data and span key are valid and max_retries > 0."
  },
  {
   "property": "C89",
   "status": "partial",
   "theorems": [
    "C89_exactly_once_refuted",
    "C89_failure_means_not_handled_refuted",
    "C89_at_most_max_retries",
    "C89_once_partial"
   ],
   "note": "False: a retry after a lost or late response repeats the request. Proved: at most max_retries times, at least once if the call returned, exactly once if it made one attempt."
  },
  {
   "property": "C90",
   "status": "partial",
   "theorems": [
    "C90_answered_refuted",
    "C90_answered_partial",
    "C90_long_response",
    "C90_long_request"
   ],
   "note": "False: asyncio limits lines to 65536 bytes on both sides. Proved for messages within the limit; a longer response makes the call fail with ValueError although the request was handled, a longer request is never handled."
  },
  {
   "property": "C91",
   "status": "partial",
   "theorems": [
    "C91_every_file_refuted",
    "C91_every_file_partial",
    "C91_in_order_partial",
    "C91_exactly_once_partial"
   ],
   "note": "False when a rotation is missed, as for one file (C43). Proved for every number of files, all of whose rotations the shipper sees: at least once and in order for every file, within a number of steps linear in the number of files; exactly once without kills. Files of different names share no inodes in the model."
  },
  {
   "property": "C92",
   "status": "partial",
   "theorems": [
    "C92_own_file_only_refuted",
    "C92_bad_line_stops_the_files_after_it",
    "C92_own_file_only_partial"
   ],
   "note": "False: the exception ends the process, and after every restart again before the files that follow in the order of names have been read: of these nothing is posted until the one file is rotated (C92_bad_line_stops_the_files_after_it). Proved only when all lines of all files can be converted."
  },
  {
   "property": "C93",
   "status": "proved",
   "theorems": [
    "C17_processing_pause_effective",
    "C51_pause_effective"
   ],
   "note": "The exact form of C17 and C51. For the sender while its queues are open."
  },
  {
   "property": "C94",
   "status": "proved",
   "theorems": [
    "C05_order_after_restart"
   ],
   "note": "The exact form of C05."
  },
  {
   "property": "C95",
   "status": "proved",
   "theorems": [
    "C10_reprocess_all_exact",
    "C11_reprocess_one_exact"
   ],
   "note": "The exact form of C10 and C11. Page size 0 is C10_page_size_zero_raises."
  },
  {
   "property": "C96",
   "status": "proved",
   "theorems": [
    "C28_stream_at_most",
    "C28_persistent_at_most",
    "C28_datagram_attempts",
    "C89_at_most_max_retries"
   ],
   "note": "The part of C28 and C89 that holds without exception."
  },
  {
   "property": "C97",
   "status": "proved",
   "theorems": [
    "C29_only_success_returns",
    "C30_transient",
    "C88_returned_was_answered",
    "C88_value_of_the_endpoint"
   ],
   "note": "The part of C29, C30 and C88 that holds without exception, for transient stream clients. Requests whose data and span key have a JSON text and max_retries > 0."
  },
  {
   "property": "C98",
   "status": "proved",
   "theorems": [
    "C52_never_stuck",
    "C53_datagrams",
    "C53_progress"
   ],
   "note": "The part of C52 and C53 that holds without exception."
  },
  {
   "property": "C99",
   "status": "proved",
   "theorems": [
    "C42_order",
    "C42_flush",
    "C42_rotation"
   ],
   "note": "The part of C42 that holds without exception (the bound on the buffer does not)."
  },
  {
   "property": "C100",
   "status": "proved",
   "theorems": [
    "C45_words",
    "C45_words_unique",
    "C45_width",
    "C45_breaks",
    "C45_greedy",
    "C45_fill"
   ],
   "note": "The part of C45 that holds without exception (blank lines are the rest)."
  },
  {
   "property": "C101",
   "status": "proved",
   "theorems": [
    "C78_delivered_was_accepted",
    "C78_accepted_was_enqueued",
    "C79_accepted_as_often_as_delivered"
   ],
   "note": "The part of C78 and C79 that holds without exception."
  },
  {
   "property": "C102",
   "status": "proved",
   "theorems": [
    "C70_only_the_named",
    "C71_only_the_named"
   ],
   "note": "The part of C70 and C71 that holds without exception."
  },
  {
   "property": "C103",
   "status": "proved",
   "theorems": [
    "C21_shut_down_completes",
    "C21_teardown",
    "C51_close_is_safe",
    "C51_shut_down_completes",
    "C51_teardown"
   ],
   "note": "The part of C21 and C51 that holds without exception (a second shut-down is the rest)."
  },
  {
   "property": "C104",
   "status": "proved",
   "theorems": [
    "C75_clean_exit_keeps_everything",
    "C75_exits_cleanly"
   ],
   "note": "The part of C75 that holds without exception."
  },
  {
   "property": "C105",
   "status": "proved",
   "theorems": [
    "C68_one_span",
    "C69_one_span"
   ],
   "note": "The part of C68 and C69 that holds without exception. The id generator yields non-zero ids and no other middleware writes to the metadata of this one."
  },
  {
   "property": "C106",
   "status": "proved",
   "theorems": [
    "C77_serving_is_set_up",
    "C77_nothing_listens_afterwards"
   ],
   "note": "The part of C77 that holds without exception."
  },
  {
   "property": "C107",
   "status": "proved",
   "theorems": [
    "C24_bad_requests",
    "C24_only_cancellation_escapes"
   ],
   "note": "The part of C24 that holds without exception."
  },
  {
   "property": "C108",
   "status": "proved",
   "theorems": [
    "C81_ipv4_addresses",
    "C81_hostname_exact",
    "C81_hostname_answers"
   ],
   "note": "The exact form of C81 for these two functions."
  },
  {
   "property": "C109",
   "status": "proved",
   "theorems": [
    "C82_flatten_exact"
   ],
   "note": "The exact form of C82."
  },
  {
   "property": "C110",
   "status": "proved",
   "theorems": [
    "C72_bem_only_what_was_asked",
    "C72_bem_one_action",
    "C72_bem_needs_key"
   ],
   "note": "The part of C72 that holds without exception, for the tool for endpoint queues."
  },
  {
   "property": "C111",
   "status": "proved",
   "theorems": [
    "C48_nothing_unexpected"
   ],
   "note": "The part of C48 that holds without exception."
  },
  {
   "property": "C112",
   "status": "proved",
   "theorems": [
    "C73_starts",
    "C73_no_file_is_shared",
    "C73_same_files_after_a_restart",
    "C73_all_are_shut_down"
   ],
   "note": "The part of C73 that holds without exception."
  },
  {
   "property": "C113",
   "status": "proved",
   "theorems": [
    "C23_accounting"
   ],
   "note": "The part of C23 that holds without exception, while the queues are open."
  },
  {
   "property": "C114",
   "status": "proved",
   "theorems": [
    "C66_content",
    "C66_batch",
    "C65_distinct",
    "C67_lines_convert"
   ],
   "note": "The part of C65 and C66 that holds without exception."
  },
  {
   "property": "C115",
   "status": "partial",
   "theorems": [
    "C115_not_lost_over_two_hops_partial",
    "C115_not_lost_over_two_hops_refuted",
    "C115_accounting"
   ],
   "note": "Refuted in full: when a span key is used again while the second application still has the first request pending, the second request is accepted everywhere and dropped. Proved: distinct span keys, valid data, nothing raised or cancelled; with exceptions and cancellations the only losses are those of the endpoint itself."
  },
  {
   "property": "C116",
   "status": "proved",
   "theorems": [
    "C116_exactly_the_processed_requests_are_sent"
   ],
   "note": "For every run in which the function passes requests on."
  },
  {
   "property": "C117",
   "status": "partial",
   "theorems": [
    "C117_handled_at_most_once_partial",
    "C117_handled_at_most_once_refuted"
   ],
   "note": "Refuted in full: an answer lost on the network makes the sender's client send again. Proved: once plus once per failed attempt."
  },
  {
   "property": "C118",
   "status": "proved",
   "theorems": [
    "C118_handlers_see_their_key",
    "C118_no_key_between_requests"
   ],
   "note": "Over an unbounded number of tasks. The key is the one in effect when the line is logged; what the buffering log handler does with it is C61. User code runs in requests, buffered processing, the main task and tasks started by user code."
  },
  {
   "property": "C119",
   "status": "partial",
   "theorems": [
    "C119_refuted",
    "C119_refuted_send",
    "C119_refuted_idle",
    "C119_exact_partial",
    "C119_send_partial",
    "C119_setup_partial"
   ],
   "note": "Refuted in full: the sending task keeps the span key of the request whose code created it, so later messages of other requests are logged under it; the processing task's own lines likewise. Proved: which key each line carries, and that it is right for the messages of the request that created the task."
  },
  {
   "property": "C120",
   "status": "proved",
   "theorems": [
    "C119_exact_partial"
   ],
   "note": "The exact form of C119."
  },
  {
   "property": "C121",
   "status": "proved",
   "theorems": [
    "C121_bounded_waiting"
   ],
   "note": "For undisturbed runs (no exception of user code, no cancelling, no pause of processing, no shut-down) and data that the DTO type accepts; that a live task exists while a request is pending is C18."
  },
  {
   "property": "C122",
   "status": "proved",
   "theorems": [
    "C122_drains"
   ],
   "note": "For every sequence of booleans returned, for requests with distinct span keys whose data the DTO type accepts."
  },
  {
   "property": "C123",
   "status": "proved",
   "theorems": [
    "C123_bounded_waiting"
   ],
   "note": "For undisturbed runs (no cancelling, no pause, no shut-down; sends may fail in any way) and data that the DTO type accepts; that a live task exists while a message is pending is C50."
  },
  {
   "property": "C124",
   "status": "proved",
   "theorems": [
    "C124_drains"
   ],
   "note": "For every sequence of outcomes of sends, for messages with distinct span keys whose data the DTO type accepts."
  },
  {
   "property": "C125",
   "status": "proved",
   "theorems": [
    "C125_recovery"
   ],
   "note": "The recovery run is constructed: at most one time-out of the attempt under way, then only events of a network that loses nothing and of applications nobody disturbs. Span keys are distinct and data is of the types of both sides."
  },
  {
   "property": "C126",
   "status": "proved",
   "theorems": [
    "C126_only_acknowledged_lines_are_passed",
    "C126_every_line_is_acknowledged",
    "C126_acknowledged_once",
    "C126_retried",
    "C126_failures_are_told"
   ],
   "note": "Rotations the shipper misses are excluded, as in C43 (they are its refuted parts). libcurl is an oracle: handle, CURLcode, response code and body of each transfer are arbitrary."
  },
  {
   "property": "C127",
   "status": "proved",
   "theorems": [
    "C127_messages_and_crashes_of_both_sides"
   ],
   "note": "two applications with crashes on both sides: exact accounting of every enqueued message, with the number lost by crashes bounded"
  },
  {
   "property": "C128",
   "status": "proved",
   "theorems": [
    "C128_bounded_processing"
   ],
   "note": "The bound is reached in C128_example."
  },
  {
   "property": "C129",
   "status": "partial",
   "theorems": [
    "C129_answer_or_failure_refuted",
    "C129_answer_or_failure_partial",
    "C129_single_call_partial",
    "C129_own_answer_partial",
    "C129_answer_arrives"
   ],
   "note": "Refuted: an answer that comes after its call has given up is taken by the next call on the same client object. True: the answer is always to some call of the same client object; to the call's own request if the client is used for one call, or if the network duplicates nothing and calls give up waiting only for what can no longer arrive. An answer that arrives in time is returned."
  },
  {
   "property": "C130",
   "status": "proved",
   "theorems": [
    "C130_handled_at_most"
   ],
   "note": "The bound is reached in C130_example."
  },
  {
   "property": "C131",
   "status": "partial",
   "theorems": [
    "C131_one_socket_refuted",
    "C131_one_socket_partial"
   ],
   "note": "Refuted: calls that start before the first one has its socket create their own, and all but the last socket are never closed. True if no call starts or resumes while another creates the socket."
  },
  {
   "property": "C132",
   "status": "proved",
   "theorems": [
    "C132_never_stuck",
    "C132_bounded",
    "C132_bounded_each"
   ],
   "note": "create_datagram_endpoint returns or raises, and timers expire: these are the events named by_itself."
  },
  {
   "property": "C133",
   "status": "proved",
   "theorems": [
    "C133_never_stuck",
    "C133_bounded"
   ],
   "note": "asyncio.open_connection, for which the code sets no time limit, is assumed to return or raise, and timers to expire: these, with the lock, are the events named alone."
  },
  {
   "property": "C134",
   "status": "proved",
   "theorems": [
    "C134_never_stuck",
    "C134_bounded"
   ],
   "note": "asyncio.open_connection and wait_closed, for which the code sets no time limit, are assumed to return or raise, and timers to expire: these are the events named alone_t."
  },
  {
   "property": "C135",
   "status": "partial",
   "theorems": [
    "C135_closes_all_partial",
    "C135_no_failure_partial",
    "C135_given_up_stays_open",
    "C135_closes_all_refuted"
   ],
   "note": "False as stated: writer.close() is reached only after a response was read and decoded. Proved: what an attempt that timed out or was cancelled had opened is never closed; at most one connection per failed attempt is left. That asyncio closes a transport when the peer closes or when it is garbage collected is not modelled."
  },
  {
   "property": "C136",
   "status": "partial",
   "theorems": [
    "C136_calls_partial",
    "C136_heartbeats_partial",
    "C136_opened_by",
    "C136_opened",
    "C136_one_connection_refuted",
    "C136_racing_refuted",
    "C136_heartbeat_refuted",
    "C136_loss_refuted"
   ],
   "note": "False as stated, in three ways, each shown by a schedule (two of them for every number of connections left open). Proved: the claim for calls and heartbeats one after the other, without heartbeats or without timeouts and cancellations; a bound on the connections each call opens in every schedule."
  },
  {
   "property": "C137",
   "status": "partial",
   "theorems": [
    "C137_queue_of_keys",
    "C137_restart",
    "C137_crash",
    "C137_no_collision",
    "C137_exactly_partial",
    "C137_every_key_refuted"
   ],
   "note": "False as stated: a key with a negative span id is accepted from a message and raises OverflowError in a queue. Proved: exactly those keys fail; with every mixture of usable and unusable keys the queue is the list, through a restart or a crash; no collisions."
  },
  {
   "property": "C138",
   "status": "partial",
   "theorems": [
    "C138_by_name_partial",
    "C138_by_name_buffered_partial",
    "C138_not_by_name",
    "C138_nothing_sent",
    "C138_one_message",
    "C138_key_given_refuted",
    "C138_key_given_buffered_refuted"
   ],
   "note": "The key is false as stated (refuted for both decorators). Proved: exactly a key given by name is used, the function sees the same one (unless it has a positional-only parameter of that name), every other call gets a new key; a function that cannot take the name fails with TypeError and nothing is sent; one message per call that returns."
  },
  {
   "property": "C139",
   "status": "partial",
   "theorems": [
    "C139_arrives",
    "C139_sendable_partial",
    "C139_passed_on_partial",
    "C139_injective",
    "C139_decoding",
    "C139_halves",
    "C139_bytes_written",
    "C139_bytes_read",
    "C139_every_string_refuted"
   ],
   "note": "The last part is false as stated (refuted with an escaped surrogate). Proved for all strings: exactly those of Unicode characters can be sent, they arrive unchanged, no control bytes; decoding accepts exactly the encodings; pairs of escapes; and the byte-level JsonModel.v writes and reads the bytes of what is written and read here."
  },
  {
   "property": "C140",
   "status": "partial",
   "theorems": [
    "C140_spelled_out_refuted",
    "C140_only_what_was_said_partial",
    "C140_key_was_given",
    "C140_words_for_clear",
    "C140_words_for_pop",
    "C140_one_action",
    "C140_bem_understands",
    "C140_log_understands",
    "C140_stat_understands",
    "C140_bsm_sends_nothing",
    "C140_instance_was_given",
    "C140_instance_after_equals",
    "C140_instance_after_name"
   ],
   "note": "False as stated: argparse accepts abbreviations, so that -c or --cl clear the errors of a queue (refuted). Proved for all argument lists: an operation is sent only if one of the arguments is a name of it or the beginning of one of its names and of no other (for clearing these are eight words, listed in the theorem); queue and key were given; two operations exclude each other; the command lines of C72 are read by this full model of argparse as there. The argparse of CPython 3.11 was compared with the model on 7500 random command lines of the five parsers, without a difference."
  },
  {
   "property": "C141",
   "status": "partial",
   "theorems": [
    "C141_every_endpoint_refuted",
    "C141_calls_partial",
    "C141_no_others",
    "C141_rest",
    "C141_scraped_partial",
    "C141_every_call_once"
   ],
   "note": "False as stated for route keys without exactly one dot (refuted with the route key ping). Proved for route keys with one dot, for every history of the keeper, gathering and scrape: the metric is present with the number of calls and with no other value. Composes the keeper of C37-C39 with the translation of C44 and the scrape of C58, whose conditions on reports are proved here of all reports the keeper gathers. The application must not write to the number of calls or to the places of the sections of the report. How the report travels from the service to the scraper is not part of this theorem."
  },
  {
   "property": "C142",
   "status": "partial",
   "theorems": [
    "C142_answers_refuted",
    "C142_answers_partial",
    "C142_exceptions",
    "C142_symmetric",
    "C142_reflexive_refuted",
    "C142_reflexive_partial",
    "C142_transitive_refuted",
    "C142_transitive_partial",
    "C142_hash_refuted",
    "C142_hash_partial"
   ],
   "note": "False as stated (four refutations). Proved: for valid keys and texts in the usual form (hexadecimal digits of either case, grouped 8-4-4-4-12, a colon, 16 digits) the answer is whether the other value is the key; the two exceptions that can occur and when; symmetry for all values; transitivity for all triples but two texts around a key; equal keys have equal hashes."
  },
  {
   "property": "C143",
   "status": "partial",
   "theorems": [
    "C143_one_object_refuted",
    "C143_one_object_partial",
    "C143_same_partial",
    "C143_returns_partial",
    "C143_never_half_made",
    "C143_failing"
   ],
   "note": "False as stated for a class whose __init__ leads to a call of the class itself (refuted). Proved for all other classes (every __init__ calls classes of lower height only), with arbitrary __init__ that may depend on history and may raise: one object per class, two calls give one object exactly if they are of one class, __init__ runs to its end once, calls return. For all classes: no object is returned before its __init__ has returned, and none at all if it always raises. Threads are not modelled."
  },
  {
   "property": "C144",
   "status": "partial",
   "theorems": [
    "C144_every_period_refuted",
    "C144_blocked",
    "C144_blocked_later",
    "C144_every_period_partial",
    "C144_none_left_out_partial",
    "C144_stops",
    "C144_ends",
    "C144_failure"
   ],
   "note": "False as stated: with a gather period of 0 or less (ECOENV_STAT_GP=0 is accepted) the loop blocks the event loop for ever (refuted; proved for all such periods, also when set later). Proved for all positive periods that are not changed during the run: gaps between gatherings, their number, that everything else goes on, that stopping is effective, and that a gathering that raises is the last."
  },
  {
   "property": "C145",
   "status": "partial",
   "theorems": [
    "C145_never_silent_refuted",
    "C145_never_silent_partial",
    "C145_silent_after_failure",
    "C145_failure",
    "C145_only_when_silent",
    "C145_not_more_often_partial",
    "C145_more_often_after_failure",
    "C145_first",
    "C145_sends_when_silent"
   ],
   "note": "False as stated: a call answered just after a look at the clock delays the next heartbeat to nearly two periods (refuted), and after a heartbeat that raises (a timeout, say) there is none until the next call, so no bound holds (proved). Proved for all histories in which no heartbeat raises: the bound of two periods and that heartbeats are at least a period apart; for all histories: heartbeats only after a silence of more than a period, and always when the task looks after one, the first call included."
  }
 ]
}