{
 "claims": [
  {
   "property": "C01",
   "status": "proved",
   "theorems": [
    "C01_request_roundtrip"
   ],
   "note": "Heartbeat requests included; header maps have distinct keys (they are dicts)."
  },
  {
   "property": "C02",
   "status": "proved",
   "theorems": [
    "C02_response_roundtrip"
   ],
   "note": "Heartbeat and fail responses included."
  },
  {
   "property": "C03",
   "status": "proved",
   "theorems": [
    "C03_request_layout",
    "C03_response_layout"
   ],
   "note": "Layout is the relation request_layout/response_layout of S_Wire.v."
  },
  {
   "property": "C04",
   "status": "proved",
   "theorems": [
    "C04_request_encodable_iff",
    "C04_response_encodable_iff",
    "C04_encode_errors"
   ],
   "note": "No truncation follows from C01-C03. Objects with __index__ are not modelled as integers."
  },
  {
   "property": "C05",
   "status": "proved",
   "theorems": [
    "C05_request_decodes_iff",
    "C05_request_meaning",
    "C05_response_decodes_iff",
    "C05_response_meaning",
    "C05_only_DecodeError"
   ],
   "note": ""
  },
  {
   "property": "C06",
   "status": "proved",
   "theorems": [
    "C06_no_proper_prefix_or_extension",
    "C06_streams_split_uniquely"
   ],
   "note": ""
  },
  {
   "property": "C07",
   "status": "proved",
   "theorems": [
    "C07_header_roundtrip",
    "C07_header_serializable_iff"
   ],
   "note": ""
  },
  {
   "property": "C08",
   "status": "proved",
   "theorems": [
    "C08_terminates",
    "C08_outcomes",
    "C08_accepts_iff",
    "C08_null_is_empty",
    "C08_bad_entry_is_DecodeError",
    "C08_odd_is_DecodeError"
   ],
   "note": ""
  },
  {
   "property": "C09",
   "status": "proved",
   "theorems": [
    "C09_decoded_can_be_forwarded"
   ],
   "note": ""
  },
  {
   "property": "C10",
   "status": "proved",
   "theorems": [
    "C10_strings_are_strict_utf8",
    "C10_encodable_iff_no_surrogates",
    "C10_wire_string"
   ],
   "note": ""
  },
  {
   "property": "C11",
   "status": "proved",
   "theorems": [
    "C11_item_assignment_has_no_effect",
    "C11_wire_bytes_fixed_at_construction"
   ],
   "note": ""
  },
  {
   "property": "C12",
   "status": "proved",
   "theorems": [
    "C12_consecutive_modulo_2_31",
    "C12_in_range_and_never_ends",
    "C12_distinct_in_window",
    "C12_always_encodable"
   ],
   "note": ""
  },
  {
   "property": "C13",
   "status": "partial",
   "theorems": [
    "C13_trace_context_propagates_partial",
    "C13_trace_lost_refuted",
    "C13_header_not_built_refuted",
    "C13_header_built_when_partial"
   ],
   "note": "The full property is false of the code: baggage keys that are attribute names of RpcTraceContext (prefix, expand, __dict__, __class__, __weakref__) lose the trace or make the call fail (refutations). Proved for every other baggage, directly and through encode/decode."
  },
  {
   "property": "C14",
   "status": "proved",
   "theorems": [
    "C14_derived_span_keeps_baggage",
    "C14_derived_rpc_id",
    "C14_origin_undisturbed"
   ],
   "note": ""
  },
  {
   "property": "C15",
   "status": "proved",
   "theorems": [
    "C15_text_roundtrip",
    "C15_contexts_roundtrip",
    "C15_canonical_text_reproduced",
    "C15_last_part_must_be_integer"
   ],
   "note": ""
  },
  {
   "property": "C16",
   "status": "partial",
   "theorems": [
    "C16_distinct_exactly_partial",
    "C16_distinct_rpc_ids_partial",
    "C16_duplicate_rpc_ids_refuted"
   ],
   "note": "The full property is false of the code: a follows-from of an older sibling repeats an id (refutation). Proved: the ids are distinct exactly when each follows-from refers to the latest span under its parent."
  },
  {
   "property": "C17",
   "status": "proved",
   "theorems": [
    "C17_text_determines_parts",
    "C17_one_process",
    "C17_always_generated",
    "C17_starts_with_ip"
   ],
   "note": "Timestamps are 13-digit milliseconds (2001 to 2286), IPv4 addresses."
  },
  {
   "property": "C18",
   "status": "proved",
   "theorems": [
    "C18_baggage_never_changes",
    "C18_set_baggage_item_raises"
   ],
   "note": ""
  },
  {
   "property": "C19",
   "status": "partial",
   "theorems": [
    "C19_tags_partial",
    "C19_tags_never_recorded_refuted"
   ],
   "note": "The full property is false of the code for every non-empty tag dict (refutation); the partial theorem says exactly what is recorded instead."
  },
  {
   "property": "C20",
   "status": "proved",
   "theorems": [
    "C20_assigning_existing_key_raises",
    "C20_assigning_new_key",
    "C20_set_once",
    "C20_removed_key_is_free"
   ],
   "note": "Stated for assignments d[k]=v and removals, as in the property; dict.update and setdefault bypass the check."
  },
  {
   "property": "C21",
   "status": "proved",
   "theorems": [
    "C21_routing",
    "C21_assigned_address_is_used"
   ],
   "note": ""
  },
  {
   "property": "C22",
   "status": "proved",
   "theorems": [
    "C22_subscribe_keeps_routes",
    "C22_posts_made"
   ],
   "note": ""
  },
  {
   "property": "C23",
   "status": "proved",
   "theorems": [
    "C23_registered_once",
    "C23_startup_outcome",
    "C23_document"
   ],
   "note": ""
  },
  {
   "property": "C24",
   "status": "proved",
   "theorems": [
    "C24_success_only_if_accepted",
    "C24_result_and_request"
   ],
   "note": ""
  },
  {
   "property": "C25",
   "status": "proved",
   "theorems": [
    "C25_publish",
    "C25_unpublish",
    "C25_without_mesh_client",
    "C25_all_published",
    "C25_mesh_client_available"
   ],
   "note": ""
  },
  {
   "property": "C26",
   "status": "proved",
   "theorems": [
    "C26_bounded",
    "C26_read",
    "C26_stored_is_held",
    "C26_evicts_least_recent"
   ],
   "note": "Assigning to a key already held does not count as a use (the code keeps its position), as the property says: last insertion or read."
  },
  {
   "property": "C27",
   "status": "proved",
   "theorems": [
    "C27_every_value_disposed_once",
    "C27_held_values_not_disposed"
   ],
   "note": ""
  },
  {
   "property": "C28",
   "status": "proved",
   "theorems": [
    "C28_pools_bounded",
    "C28_discarded_closed_exactly_once",
    "C28_same_key_same_pool",
    "C28_lookup_retains",
    "C28_clear_closes_all",
    "C28_user_close_breaks_clear"
   ],
   "note": "Histories of lookups, clears, gets and puts. C28_user_close_breaks_clear shows why users must not close pools themselves."
  },
  {
   "property": "C29",
   "status": "proved",
   "theorems": [
    "C29_never_lent_twice",
    "C29_get_returns_unlent"
   ],
   "note": ""
  },
  {
   "property": "C30",
   "status": "partial",
   "theorems": [
    "C30_open_connections_bounded_partial",
    "C30_race_exceeds_limit_refuted",
    "C30_dropped_connections_refuted"
   ],
   "note": "The full property is false of the code: by a thread race in the creation of connections and, without threads, by dropped connections that are handed out and given back. The partial theorem bounds the open connections in sequential histories in which no connection closed by the pool is given back."
  },
  {
   "property": "C31",
   "status": "partial",
   "theorems": [
    "C31_undropped_not_closed_partial",
    "C31_dropped_returned_closed_refuted"
   ],
   "note": "The full property is false of the code: a dropped free connection is closed and then handed out. The partial theorem covers connections that do not look dropped."
  },
  {
   "property": "C32",
   "status": "partial",
   "theorems": [
    "C32_get_succeeds_partial",
    "C32_exactly_partial",
    "C32_free_connection_lost_refuted",
    "C32_capacity_lost_for_ever_refuted"
   ],
   "note": "The full property is false of the code: when the refill after taking a free connection is refused, the call fails and the connection taken is lost. The partial theorems say exactly when get_conn succeeds and what is lost when it does not."
  },
  {
   "property": "C33",
   "status": "proved",
   "theorems": [
    "C33_close_releases_everything",
    "C33_nothing_left_open",
    "C33_second_close_raises"
   ],
   "note": "Also shown: a second close raises AttributeError."
  },
  {
   "property": "C34",
   "status": "proved",
   "theorems": [
    "C34_given_back_exactly_once",
    "C34_looked_up_pool_exists",
    "C34_given_back_means"
   ],
   "note": ""
  },
  {
   "property": "C35",
   "status": "proved",
   "theorems": [
    "C35_complete_response_is_received",
    "C35_same_result_for_every_chunking",
    "C35_always_returns",
    "C35_never_reads_beyond"
   ],
   "note": "For every response frame, every tail and every way the bytes become readable: the frame is received completely, nothing after it is read, and the result does not depend on the chunking."
  },
  {
   "property": "C36",
   "status": "proved",
   "theorems": [
    "C36_value_only_from_matching_success",
    "C36_wellformed_response",
    "C36_malformed_response",
    "C36_deadline"
   ],
   "note": "A returned value comes from a well-formed frame with the id just drawn and status SUCCESS; complete classification of the outcomes of complete frames, and the deadline. Giving the connection back is assumed to work where a value is promised (C104)."
  },
  {
   "property": "C37",
   "status": "partial",
   "theorems": [
    "C37_closed_by_server_refuted",
    "C37_silence_or_reset_ends_the_call_partial"
   ],
   "note": "The full property is false of the code: after the server closes, the socket stays readable and the loop never ends, for every proper prefix of a response (refuted for all of them). What holds: the call ends when nothing becomes readable before the deadline or when recv raises."
  },
  {
   "property": "C38",
   "status": "partial",
   "theorems": [
    "C38_partial_send_refuted",
    "C38_unencodable_refuted",
    "C38_at_most_one_write_partial",
    "C38_prefix_on_returned_connection_partial",
    "C38_complete_after_retries_partial"
   ],
   "note": "The full property is false of the code: a partial send is taken for complete, and an unencodable request is not sent while the call goes on to wait. What holds: at most one write, a prefix of the request, on the connection that is returned; complete when an attempt takes everything."
  },
  {
   "property": "C39",
   "status": "partial",
   "theorems": [
    "C39_reuse_refuted",
    "C39_no_sharing_partial"
   ],
   "note": "The reuse half is false of the code: each pool lookup creates a new pool manager, so no connection is ever used twice, over any history. The no-sharing half holds."
  },
  {
   "property": "C40",
   "status": "proved",
   "theorems": [
    "C40_value_only_from_matching_success"
   ],
   "note": "For every schedule, byte stream, failure and cancellation."
  },
  {
   "property": "C41",
   "status": "proved",
   "theorems": [
    "C41_response_is_delivered",
    "C41_strays_change_nothing",
    "C41_outcome_is_final"
   ],
   "note": "Waiting means: the request has been flushed and the call waits for its answer. An answer arriving before the flush is over is lost; that case is the counterexample of C47."
  },
  {
   "property": "C42",
   "status": "partial",
   "theorems": [
    "C42_error_status_gives_KeyError_refuted",
    "C42_no_ServerError_refuted",
    "C42_error_ends_the_call_partial"
   ],
   "note": "The full property is false of the code: the caller gets KeyError, never ServerError (proved for all schedules). Proved: the call ends with an exception and not with a value."
  },
  {
   "property": "C43",
   "status": "partial",
   "theorems": [
    "C43_pending_calls_hang_refuted",
    "C43_reader_ends_partial",
    "C43_cancelled_calls_end_partial",
    "C43_open_while_read_partial"
   ],
   "note": "The full property is false of the code: the call waits for ever (proved for all continuations without an answer or a cancellation). Proved: the reader ends and closes the connection; a cancelled call ends."
  },
  {
   "property": "C44",
   "status": "partial",
   "theorems": [
    "C44_acknowledged_heartbeats_stop_refuted",
    "C44_dead_timer_stays_dead_refuted",
    "C44_next_heartbeat_partial"
   ],
   "note": "The full property is false of the code: acknowledgements with cmdcode HEARTBEAT never let the timer send a second heartbeat. Proved: a success RESPONSE frame does."
  },
  {
   "property": "C45",
   "status": "partial",
   "theorems": [
    "C45_aio_oneway_is_twoway_refuted",
    "C45_aio_oneway_waits_refuted",
    "C45_sync_oneway_partial",
    "C45_aio_forgets_oneway_partial"
   ],
   "note": "False of the asyncio client: it sends type REQUEST, keeps the entry and waits. Proved for the synchronous client; the asyncio client would forget a request of type ONEWAY."
  },
  {
   "property": "C46",
   "status": "proved",
   "theorems": [
    "C46_one_connection_per_address",
    "C46_dialing_is_exclusive",
    "C46_calls_use_the_connection_of_their_address",
    "C46_waiting_for_a_dial_ends"
   ],
   "note": "Sending does not fail: no drain fails and the request can be encoded."
  },
  {
   "property": "C47",
   "status": "partial",
   "theorems": [
    "C47_response_entry_leaks_refuted",
    "C47_no_request_entry_partial",
    "C47_no_response_entry_partial"
   ],
   "note": "The full property is false of the code: a response arriving during the second drain is stored and never fetched, and the call ends with KeyError. Proved: no request entry remains; no response entry unless a call was abandoned or ended with KeyError."
  },
  {
   "property": "C48",
   "status": "proved",
   "theorems": [
    "C48_frames_are_delimited",
    "C48_all_frames_are_consumed",
    "C48_malformed_frames_change_nothing"
   ],
   "note": ""
  },
  {
   "property": "C49",
   "status": "proved",
   "theorems": [
    "C49_at_most_one_answer_per_frame"
   ],
   "note": "for every schedule; received frames as divided by the format of S_Wire/S_Server"
  },
  {
   "property": "C50",
   "status": "partial",
   "theorems": [
    "C50_result_is_answered_partial",
    "C50_request_is_taken_partial",
    "C50_empty_result_refuted",
    "C50_unreadable_trace_refuted"
   ],
   "note": "The full property is false of the code: an empty result and a request with unreadable trace headers are never answered (_refuted). Proved for non-empty results of requests with readable trace headers."
  },
  {
   "property": "C51",
   "status": "partial",
   "theorems": [
    "C51_one_way_answers_partial",
    "C51_one_way_answered_refuted"
   ],
   "note": "The full property is false of the code: one-way requests that are refused are answered (_refuted). Proved: one-way requests passed on to a method are not answered, others only with status 2, 6 or 8."
  },
  {
   "property": "C52",
   "status": "proved",
   "theorems": [
    "C52_heartbeat_is_answered"
   ],
   "note": ""
  },
  {
   "property": "C53",
   "status": "partial",
   "theorems": [
    "C53_unknown_is_no_processor_partial",
    "C53_construction_is_server_exception_partial",
    "C53_missing_name_is_client_send_error_partial",
    "C53_exception_is_unknown_partial",
    "C53_slow_is_timeout_partial",
    "C53_bad_frame_is_reported_partial",
    "C53_attribute_error_refuted",
    "C53_own_timeout_error_refuted",
    "C53_not_utf8_refuted"
   ],
   "note": "The full property is false of the code in three cases (_refuted): AttributeError of the service constructor, TimeoutError of the method, header part that is not UTF-8. Proved for the others."
  },
  {
   "property": "C54",
   "status": "partial",
   "theorems": [
    "C54_bad_frame_is_skipped_partial",
    "C54_empty_content_partial",
    "C54_content_is_taken_for_frames_refuted",
    "C54_smuggled_call_refuted"
   ],
   "note": "The full property is false of the code: after a malformed header part the content of the frame is read as frames (_refuted). Proved for wrong command code or class name, and for malformed header parts without content."
  },
  {
   "property": "C55",
   "status": "proved",
   "theorems": [
    "C55_chunking_does_not_matter",
    "C55_chunking_does_not_matter_meanwhile"
   ],
   "note": ""
  },
  {
   "property": "C56",
   "status": "proved",
   "theorems": [
    "C56_executed_at_most_once",
    "C56_executed_as_requested",
    "C56_success_was_executed"
   ],
   "note": ""
  },
  {
   "property": "C57",
   "status": "partial",
   "theorems": [
    "C57_one_last_frame_partial",
    "C57_nothing_after_closing_partial",
    "C57_last_request_answered_again_refuted"
   ],
   "note": "The full property is false of the code: after a half-close the last request is answered again with CONNECTION_CLOSED (_refuted). Proved: there is at most that one extra frame, and nothing after it."
  },
  {
   "property": "C58",
   "status": "partial",
   "theorems": [
    "C58_last_registration_serves_partial",
    "C58_separate_refuted"
   ],
   "note": "The full property is false of the code: all listeners share one registry (_refuted, for every history). Proved: a request is served by the registration made last for the interface on any listener."
  },
  {
   "property": "C59",
   "status": "proved",
   "theorems": [
    "C59_result_is_answered",
    "C59_heartbeat_is_answered",
    "C59_missing_name_is_reported",
    "C59_otherwise_no_reply",
    "C59_connection_is_closed"
   ],
   "note": ""
  },
  {
   "property": "C60",
   "status": "partial",
   "theorems": [
    "C60_terminates_refuted",
    "C60_broken_connection_partial"
   ],
   "note": "The property is false of the code: the reading loop never ends on an orderly disconnect before a complete frame (_refuted, for every truncated input). Proved: the thread ends if the connection breaks with an error."
  },
  {
   "property": "C61",
   "status": "partial",
   "theorems": [
    "C61_threaded_server_partial",
    "C61_asyncio_server_takes_partial",
    "C61_asyncio_server_partial",
    "C13_trace_lost_refuted"
   ],
   "note": "Fails only for a call whose baggage holds the key \"prefix\", whose context is lost on the way (C13_trace_lost_refuted); that key is excluded by the hypotheses. Proved for every other call, with both servers and both clients. Giving the connection back is assumed to work where a value is promised (C104)."
  },
  {
   "property": "C62",
   "status": "partial",
   "theorems": [
    "C62_first_frame_partial",
    "C62_every_request_is_answered_refuted"
   ],
   "note": "The full property is false of the code: only the first frame of a connection is dealt with (_refuted). Proved: whatever is sent or called belongs to the first frame."
  },
  {
   "property": "C63",
   "status": "partial",
   "theorems": [
    "C63_one_way_answered_refuted"
   ],
   "note": "The property is false of the code: one-way requests are answered like two-way requests (_refuted)."
  },
  {
   "property": "C64",
   "status": "partial",
   "theorems": [
    "C64_failures_are_reported_refuted",
    "C59_missing_name_is_reported"
   ],
   "note": "The full property is false of the code: unknown services, exceptions and malformed frames close the connection without a reply (_refuted). Missing names are reported (C59_missing_name_is_reported)."
  },
  {
   "property": "C65",
   "status": "proved",
   "theorems": [
    "C65_whole_request_to_the_address",
    "C65_at_most_three_times",
    "C65_sent_before_waiting",
    "C65_nothing_else_is_written"
   ],
   "note": ""
  },
  {
   "property": "C66",
   "status": "partial",
   "theorems": [
    "C66_sent_again_refuted",
    "C66_once_per_failure_partial",
    "C66_once_if_no_flush_fails_partial"
   ],
   "note": "The full property is false of the code: after a failed flush the request is written again (_refuted). Proved: at most one write more than failed flushes, so once if none fails."
  },
  {
   "property": "C67",
   "status": "proved",
   "theorems": [
    "C67_value_of_that_method"
   ],
   "note": "Stated for request ids that do not repeat (C12 bounds when they do)."
  },
  {
   "property": "C68",
   "status": "partial",
   "theorems": [
    "C68_executed_twice_refuted",
    "C68_executions_partial"
   ],
   "note": "The full property is false of the code: a request whose flush fails after it was delivered is sent and executed again (_refuted). Proved: at most three executions, and at most one more than there were failed flushes."
  },
  {
   "property": "C69",
   "status": "proved",
   "theorems": [
    "C69_callback_at_most_once",
    "C69_callback_gets_the_value",
    "C69_value_reaches_the_callback",
    "C69_no_callback_after_cancelling",
    "C69_accepted",
    "C69_refused"
   ],
   "note": "Stated for request ids that do not repeat (C12 bounds when they do)."
  },
  {
   "property": "C70",
   "status": "partial",
   "theorems": [
    "C70_callback_after_timeout_refuted",
    "C70_cancelled_when_late_partial"
   ],
   "note": "The full property is false of the code: the timeout is only used once the result is there, so the callback is called however late the answer comes (_refuted, for every late answer). Proved: cancelling the future when the time is over prevents it."
  },
  {
   "property": "C71",
   "status": "proved",
   "theorems": [
    "C71_ends_at_most_once",
    "C71_returns_the_value",
    "C71_ends_in_time",
    "C71_TimeoutError_only_when_late",
    "C71_outcome_reaches_the_caller",
    "C71_timeout_must_be_a_number"
   ],
   "note": "Stated for request ids that do not repeat (C12 bounds when they do)."
  },
  {
   "property": "C72",
   "status": "partial",
   "theorems": [
    "C72_timed_out_call_stays_refuted",
    "C72_nothing_left_once_answered_partial"
   ],
   "note": "The full property is false of the code: the coroutine and its entry stay as long as no frame with the id arrives (_refuted, for every schedule). Proved: once all coroutines have ended no entry remains."
  },
  {
   "property": "C73",
   "status": "partial",
   "theorems": [
    "C73_fraction_never_returns_refuted",
    "C73_int_timeouts_are_encodable_partial"
   ],
   "note": "The full property is false of the code: no call with a non-zero float timeout ever returns a value, because the timeout is packed as an int (_refuted, for every such call). Proved: ints of 32 bits are encodable."
  },
  {
   "property": "C74",
   "status": "partial",
   "theorems": [
    "C74_connection_is_deaf_refuted",
    "C74_other_calls_hang_refuted",
    "C74_nothing_is_written_partial",
    "C74_returns_no_value_partial",
    "C74_other_connections_partial"
   ],
   "note": "The full property is false of the code: the failure to encode counts as a failure of the connection; its reader is cancelled and the calls waiting there hang (_refuted, for every schedule). Proved: nothing is written, no value returned, other connections untouched."
  },
  {
   "property": "C75",
   "status": "proved",
   "theorems": [
    "C75_one_thread_at_a_time",
    "C75_lent_once",
    "C75_lent_is_not_free",
    "C75_free_once",
    "C75_free_bounded"
   ],
   "note": ""
  },
  {
   "property": "C76",
   "status": "partial",
   "theorems": [
    "C76_put_races_close_refuted",
    "C76_get_after_close_partial",
    "C76_put_after_close_partial",
    "C76_nothing_lost_partial",
    "C76_drained_stays_empty_partial",
    "C76_close_works_partial",
    "C76_close_again_partial"
   ],
   "note": "The full property is false of the code: a put_conn that has read the attribute just before close() replaces it puts its connection into the abandoned queue, where it stays open (_refuted). Proved: operations that begin after closing behave as stated; when no get_conn failed, a connection that is neither closed nor lent is in that queue; and the drained queue stays empty unless a put_conn is at that very point; of several calls of close() at least one does not fail."
  },
  {
   "property": "C77",
   "status": "partial",
   "theorems": [
    "C77_waits_for_ever_refuted",
    "C77_timeout_ends_the_wait_partial",
    "C77_no_wait_without_block_partial"
   ],
   "note": "The full property is false of the code: a get_conn waiting without a timeout when the pool is closed waits for ever (_refuted, for every continuation). Proved: the parts about timeouts and block=False."
  },
  {
   "property": "C78",
   "status": "proved",
   "theorems": [
    "C78_bounded_work",
    "C78_no_deadlock"
   ],
   "note": ""
  },
  {
   "property": "C79",
   "status": "proved",
   "theorems": [
    "C79_value_of_that_method"
   ],
   "note": ""
  },
  {
   "property": "C80",
   "status": "proved",
   "theorems": [
    "C80_executed_at_most_once"
   ],
   "note": ""
  },
  {
   "property": "C81",
   "status": "proved",
   "theorems": [
    "C81_request_frame",
    "C81_heartbeat_frame",
    "C81_response_frame",
    "C81_failure_frame",
    "C81_heartbeat_answer_frame",
    "C81_frames_are_made"
   ],
   "note": ""
  },
  {
   "property": "C82",
   "status": "partial",
   "theorems": [
    "C82_pop_with_default_raises_refuted",
    "C82_setdefault_differs_refuted",
    "C82_order_partial",
    "C82_order_is_kept_partial",
    "C82_results_partial",
    "C82_disposed_partial",
    "C82_contents_partial"
   ],
   "note": "The full property is false of the code: pop(key, default) and setdefault, inherited from MutableMapping, take the lock twice (_refuted). Proved for all other operations and for the lookup of a pool."
  },
  {
   "property": "C83",
   "status": "proved",
   "theorems": [
    "C83_one_pool",
    "C83_own_pool",
    "C83_shared_pool"
   ],
   "note": ""
  },
  {
   "property": "C84",
   "status": "proved",
   "theorems": [
    "C84_no_deadlock",
    "C84_terminates"
   ],
   "note": ""
  },
  {
   "property": "C85",
   "status": "partial",
   "theorems": [
    "C85_answered_too_early_refuted",
    "C85_empty_result_refuted",
    "C85_outcome_partial",
    "C85_outcome_held_up_partial"
   ],
   "note": "The full property is false of the code: an answer read before the second drain of its request has returned is lost and the call raises KeyError, and a method that returns nothing to send leaves its call waiting for ever (_refuted). Proved: the method was called with the content of the call and ended; if it raised, the call raises KeyError; if it returned bytes and no request is held up between being written and being waited for, the call returns them; otherwise it never ends."
  },
  {
   "property": "C86",
   "status": "partial",
   "theorems": [
    "C86_one_way_refuted",
    "C86_asyncio_partial",
    "C86_sync_call",
    "C86_sync_one_way"
   ],
   "note": "The full property is false of the asyncio client: it never writes a one-way request (_refuted). Everything else is proved, for both clients; the synchronous client writes a part from the start or all of the frame."
  },
  {
   "property": "C87",
   "status": "proved",
   "theorems": [
    "C87_terminates",
    "C87_not_for_ever",
    "C87_comes_to_rest",
    "C87_call_can_end"
   ],
   "note": "Stated for arbitrary states of the system; by a measure that every step which changes something lowers, lexicographically."
  },
  {
   "property": "C88",
   "status": "proved",
   "theorems": [
    "C88_at_most_30",
    "C88_in_order",
    "C88_no_idle_worker",
    "C88_connection"
   ],
   "note": "By an invariant of the listener state: the work queue holds every waiting call, and the running calls are counted. C88_connection shows that every connection of the listener is a run of the single-connection model, so that C49 to C57 hold of it."
  },
  {
   "property": "C89",
   "status": "partial",
   "theorems": [
    "C89_stuck_refuted",
    "C89_started_partial"
   ],
   "note": "The full property is false: a timeout answers the caller but leaves the method on its worker thread, and 30 of them stop all execution; calls without a timeout then wait for ever (_refuted, with a case). Proved: a waiting call can be started as soon as running methods end."
  },
  {
   "property": "C90",
   "status": "partial",
   "theorems": [
    "C90_both_refuted",
    "C90_settled_partial",
    "C90_sole_partial",
    "C90_removed_once_partial"
   ],
   "note": "The full property is false: two threads that both find the name missing both store, both return, and the address changes (_refuted, for every map and name). Proved: once set and no assignment is under way it stays and later assignments raise KeyError; a thread alone with its name gets what the sequential map gives."
  },
  {
   "property": "C91",
   "status": "proved",
   "theorems": [
    "C91_once",
    "C91_result",
    "C91_finish",
    "C91_bounded"
   ],
   "note": "By an invariant (who holds the lock, and that a registration was accepted exactly if the flag is set or about to be) over all interleavings."
  },
  {
   "property": "C92",
   "status": "partial",
   "theorems": [
    "C92_same_refuted",
    "C92_differ_partial"
   ],
   "note": "The full property is false: two threads that read the counter before either writes it make children with the same rpc id (_refuted, for every rpc id). Proved for all interleavings in which no thread begins to make a child of an rpc id while another is making one of the same rpc id."
  },
  {
   "property": "C93",
   "status": "partial",
   "theorems": [
    "C93_spoiled_refuted",
    "C93_prefix_partial",
    "C93_returned_partial",
    "C93_all_partial"
   ],
   "note": "The full property is false: a new interface registered before publish() has returned makes its loop raise after at most one more request, and the rest is never published (_refuted, with a case). Proved: the requests name the interfaces in order; a normal return means all were accepted; with no new names publish() publishes all of them."
  },
  {
   "property": "C94",
   "status": "partial",
   "theorems": [
    "C94_closed_refuted",
    "C94_connect_refuted",
    "C94_ends_by_partial",
    "C94_ends_partial",
    "C94_timeout_partial",
    "C94_in_time_partial"
   ],
   "note": "The full property is false in two ways: after a server that closes early the call goes on for ever (_closed_refuted), and establishing the connection is not covered by the timeout (_connect_refuted). Proved: otherwise the call goes beyond the deadline only by the time of its own steps, of which there are boundedly many; TimeoutError not before the deadline and only without a complete response; a response in time is returned. Giving the connection back is assumed to work where a value is promised (C104)."
  },
  {
   "property": "C95",
   "status": "proved",
   "theorems": [
    "C95_value_of_that_method",
    "C95_executions",
    "C95_separate",
    "C95_at_most_30"
   ],
   "note": "Request ids are distinct within each client (C12) but may coincide between clients. The network delivers in order what was written, in any pieces, and may lose connections; on the connections of other programs anything may arrive."
  },
  {
   "property": "C96",
   "status": "proved",
   "theorems": [
    "C96_sync_value",
    "C96_sync_executed",
    "C96_three_connections",
    "C96_separate",
    "C96_aio_value",
    "C96_aio_executions",
    "C96_at_most_30",
    "C96_other_programs"
   ],
   "note": "Request ids are distinct within each asyncio client (C12), otherwise free. The network delivers in order what was written, in any pieces, and may lose connections. Asyncio clients call asyncio listeners only (both kinds: C102); connections that a pool opens without using them are left out."
  },
  {
   "property": "C97",
   "status": "partial",
   "theorems": [
    "C97_threaded_serves",
    "C97_threaded_stops_partial",
    "C97_threaded_ends_partial",
    "C97_threaded_not_started_refuted",
    "C97_threaded_unserved_refuted",
    "C97_asyncio_stops_partial",
    "C97_asyncio_runs_on_refuted",
    "C97_asyncio_goes_on_refuted",
    "C97_asyncio_lost_refuted",
    "C97_asyncio_listener",
    "C97_threaded_every_client",
    "C97_asyncio_shutdown_returns_partial",
    "C97_asyncio_every_client",
    "C97_asyncio_before_start"
   ],
   "note": "The full property is false. Threaded listener: shutdown() before run_forever waits until somebody calls run_forever, for ever if nobody does; after shutdown the port stays open, so clients connect and are never served (the server socket is never closed). Asyncio listener: run_forever never returns; accepted connections are served on, new requests included; a shutdown during start-up is lost. Proved, with run_forever called once: a running threaded listener serves every connection; after its shutdown returned run_forever has returned and nothing is served any more; asked to stop it returns after five steps, and then shutdown does. After an asyncio shutdown that found the server started nothing is accepted and clients are refused."
  },
  {
   "property": "C98",
   "status": "partial",
   "theorems": [
    "C98_no_limit_refuted",
    "C98_limit_partial"
   ],
   "note": "The full property is false without any bound: the increment of num_connections is not made under the lock, so it can be lost against a decrement; two threads repeating this have as many connections as they like, in a pool limited to three. Proved for all interleavings in which no two threads are between passing the check (or taking the lock) and storing the counter at the same time, and no closed connection is given back (a pool hands out closed connections, C31)."
  },
  {
   "property": "C99",
   "status": "partial",
   "theorems": [
    "C99_value_of_that_method",
    "C99_called_as_asked",
    "C99_executions_bounded",
    "C99_calls_share_a_connection_refuted"
   ],
   "note": "The full property is false: the threaded listener serves one request for each connection and closes it, while the asyncio client keeps one connection for each address and sends all its calls there. However the programs run there is never more than one value for each connection that was opened; a call whose request came second waits until its timeout. The rest is proved for all runs (request ids distinct, C12; the network delivers in order what was written, in any pieces, and may lose connections)."
  },
  {
   "property": "C100",
   "status": "partial",
   "theorems": [
    "C100_one_origin",
    "C100_trace_kept",
    "C100_id_extends",
    "C100_call_keeps_id",
    "C100_same_id_partial",
    "C100_reused_context_refuted",
    "C100_both_sides_refuted",
    "C100_follows_at_callee_refuted"
   ],
   "note": "The origin of contexts, the trace id and items, and the extension of rpc ids are proved for all runs (no context that is sent may hold an item named prefix, which loses the trace: C13). That rpc ids tell contexts apart is false in three ways that ordinary use meets: the same context is passed to two calls (the README passes on the received context), a context that was sent has children at both sides, or the callee makes a span that follows from the one it received. Proved, as an equivalence, when every call has a span of its own and nothing but child spans is made."
  },
  {
   "property": "C101",
   "status": "partial",
   "theorems": [
    "C101_stream_consumed",
    "C101_stream_cut",
    "C101_read_ends_partial",
    "C101_read_at_end_refuted",
    "C101_written_prefix",
    "C101_all_written_partial",
    "C101_all_written_refuted",
    "C101_stream_is_what_came",
    "C101_why_raised",
    "C101_closed_raises"
   ],
   "note": "That reads take consecutive pieces of exactly the size asked for, and what sendall has written whenever it ends, is proved for all runs. That every read ends is false: when the other side closes early recvexactly reads the empty end for ever; proved that it ends within as many rounds as bytes are missing, and one, when enough bytes are there. That sendall returns normally is false for the non-blocking connections that the pool makes by default: it raises when the buffers are full, after any part of the data; proved for blocking connections."
  },
  {
   "property": "C102",
   "status": "proved",
   "theorems": [
    "C102_value",
    "C102_executed_as_asked",
    "C102_executions",
    "C102_separate",
    "C102_sync_value",
    "C102_sync_executed",
    "C102_at_most_30",
    "C102_other_programs"
   ],
   "note": "Joins C96 and C99: asyncio clients here call listeners of both kinds. Request ids are distinct within each asyncio client (C12), otherwise free. The network delivers in order what was written, in any pieces, and may lose connections. Listeners have one address each; addresses below 0 are those of threaded listeners. Connections that a pool opens without using them are left out."
  },
  {
   "property": "C103",
   "status": "partial",
   "theorems": [
    "C103_three_per_call_refuted",
    "C103_history_refuted",
    "C103_at_most_partial",
    "C103_call_at_most_partial"
   ],
   "note": "The full property is false of the code: with the default pool every fetch opens exactly two connections and giving back opens one more, so a call whose first attempt succeeds opens three, always (_three_per_call_refuted; _history_refuted over all histories). What holds: that is also the most; a call opens at most seven."
  },
  {
   "property": "C104",
   "status": "partial",
   "theorems": [
    "C104_answer_lost_refuted",
    "C104_one_way_refuted",
    "C104_answer_kept_partial",
    "C104_only_then_partial"
   ],
   "note": "The full property is false of the code: giving the connection back makes a new pool, whose first socket may fail, and then the caller gets OSError although the answer was read, whatever it was (_answer_lost_refuted), and although the one-way request was sent (_one_way_refuted). What holds: with that socket a successful answer is returned, and a value is returned in no other case."
  },
  {
   "property": "C105",
   "status": "partial",
   "theorems": [
    "C105_own_answers_refuted",
    "C105_own_answers_partial",
    "C105_nothing_waiting_partial",
    "C105_not_ended_partial"
   ],
   "note": "The full property is false of the code: a connection is taken back whatever is still to come on it, and an answer that arrives when it has been handed out again is read by the next borrower, whole (_own_answers_refuted, for every answer). What holds: that is the only way; bytes that have arrived before the connection is handed out again are never read by the next borrower."
  },
  {
   "property": "C106",
   "status": "partial",
   "theorems": [
    "C106_read_only_refuted",
    "C106_update_changes_refuted",
    "C106_removal_refuted",
    "C106_popitem_refuted",
    "C106_kept_partial",
    "C106_absent_partial",
    "C106_assignment_partial"
   ],
   "note": "The full property is false of the code: the three classes override item assignment only, so update puts in any value and pop, del, popitem and clear remove, without an error (the _refuted theorems, for every class, contents, key and value). What holds: item assignment and setdefault never change an entry, an entry changes only by an update naming it or a removing method, and a key comes in only by update, setdefault or, in the write-once mapping, assignment."
  },
  {
   "property": "C107",
   "status": "proved",
   "theorems": [
    "C107_one_thread",
    "C107_lent_is_not_free",
    "C107_open_is_held",
    "C107_open_at_most",
    "C107_errors",
    "C107_passed_on"
   ],
   "note": "The pools of M_PoolThreads inside the manager of M_LruThreads, as one machine."
  },
  {
   "property": "C108",
   "status": "partial",
   "theorems": [
    "C108_pool_closed_meanwhile_refuted",
    "C108_undisturbed_partial"
   ],
   "note": "The full property is false of the code: with max_pools = 1 the lookup of another address closes the pool between the lookup and the get_conn of the first thread, which then fails with ClosedPoolError (C108_pool_closed_meanwhile_refuted). What holds: when no more than max_pools addresses are ever asked for and nobody calls clear() or closes a pool, no pool is ever closed and no get_conn fails with ClosedPoolError."
  },
  {
   "property": "C109",
   "status": "partial",
   "theorems": [
    "C109_waits_for_ever_refuted",
    "C109_no_deadlock_partial",
    "C109_terminates_partial"
   ],
   "note": "The full property is false of the code: with initial_connections > max_free_connections > 0 the constructor of the first pool waits for ever in a full queue while the lookup holds the lock of the manager, so that lookup and every later call of the manager, for any address, never ends (C109_waits_for_ever_refuted, for every such state and continuation). What holds with other settings: when no thread can do anything all calls have ended, except get_conn calls that wait without a timeout for a connection, and threads cannot go on for ever without new calls."
  },
  {
   "property": "C110",
   "status": "partial",
   "theorems": [
    "C110_stopped_twice_refuted",
    "C110_starts_again_partial"
   ],
   "note": "The full property is false of the code: a second call of shutdown after the first has returned makes the next run_forever return at once (universal refutation). Proved for histories with one call of shutdown."
  },
  {
   "property": "C111",
   "status": "partial",
   "theorems": [
    "C111_same_text_unequal_refuted",
    "C111_compare_by_text_partial",
    "C111_spans_compare_by_text_partial",
    "C111_equal_is_same_text"
   ],
   "note": "The full property is false of the code: RpcId(\"a.b\", 1) and RpcId(\"a\", \"b\", 1) are written alike and differ (refutation). Proved for all ids made from parts without dots, so for the ids of all spans."
  },
  {
   "property": "C112",
   "status": "partial",
   "theorems": [
    "C112_reference_ignored_refuted",
    "C112_derived_from_used_partial",
    "C112_new_trace"
   ],
   "note": "The full property is false of the code: only the first reference is used, and a parent that is neither a span nor a context is ignored (refutation). Proved for the context that is used."
  },
  {
   "property": "C113",
   "status": "partial",
   "theorems": [
    "C113_start_time_lost_refuted",
    "C113_times_partial",
    "C113_given_start_partial"
   ],
   "note": "The full property is false of the code: a start time of zero is ignored, entering a span overwrites its start time, and a finished span can be entered again (refutation). Proved otherwise."
  },
  {
   "property": "C114",
   "status": "partial",
   "theorems": [
    "C114_deadlock_refuted",
    "C114_nested_ends_partial"
   ],
   "note": "The full property is false of the code: 30 methods that wait for calls to the same listener block it for ever (universal refutation). Proved while fewer than 30 calls wait for others."
  },
  {
   "property": "C115",
   "status": "proved",
   "theorems": [
    "C115_closed",
    "C115_few_steps",
    "C115_soon",
    "C115_for_good"
   ],
   "note": ""
  },
  {
   "property": "C116",
   "status": "partial",
   "theorems": [
    "C116_unsendable_refuted",
    "C116_cancelled_unread_refuted",
    "C116_forgotten_refuted",
    "C116_exactly_partial",
    "C116_failed_send_partial",
    "C116_soon_partial"
   ],
   "note": "The full property is false of the code (universal refutations): a request that cannot be encoded leaves three connections that are never closed, and a connection given up without cancelling its read task stays open; examples show how a second failure or a second dial brings this about. Proved: exactly which given up connections can still be closed, and how soon the others are."
  },
  {
   "property": "C117",
   "status": "proved",
   "theorems": [
    "C117_accepted",
    "C117_not_accepted",
    "C117_waits",
    "C117_threaded",
    "C117_can_be_answered",
    "C117_call_works",
    "C117_asyncio"
   ],
   "note": ""
  },
  {
   "property": "C118",
   "status": "partial",
   "theorems": [
    "C118_sync_never_returns_refuted",
    "C118_sync_times_out_refuted",
    "C118_others_stand_still_refuted",
    "C118_as_from_outside_partial",
    "C118_loop_gets_free_partial",
    "C118_taken_by_callback",
    "C118_held_by_callback",
    "C118_held_by_call",
    "C118_elsewhere_goes_on"
   ],
   "note": "The full property is false of the code: callbacks run in the thread of the event loop, so an invoke_sync made by a callback always times out, and no other call gets on while a callback runs (universal refutations). Proved: apart from that, calls made by callbacks are like calls made by others, and the loop gets free again."
  },
  {
   "property": "C119",
   "status": "partial",
   "theorems": [
    "C119_listener_stops_refuted",
    "C119_never_answered_refuted",
    "C119_others_served_partial",
    "C119_stops_only_then_partial",
    "C119_not_awaited_harmless_partial"
   ],
   "note": "The full property is false of the code: SystemExit or KeyboardInterrupt raised by an awaited method ends the event loop of the listener, and nothing is written or accepted any more (universal refutation); any other BaseException that is not an Exception leaves its request unanswered for ever (universal refutation). Proved: nothing else stops the listener, the others are served as if an ordinary exception had been raised, and what methods that nobody awaits raise harms nobody."
  },
  {
   "property": "C120",
   "status": "partial",
   "theorems": [
    "C120_new_each_time_refuted",
    "C120_race_refuted",
    "C120_one_by_one_partial",
    "C120_from_then_on_partial",
    "C120_own_class_partial"
   ],
   "note": "The full property is false of the code: the attribute __metaclass__ has no effect in Python 3, so every call of a client class makes a new object (universal refutation), and the metaclass itself lets two threads that make the first client at the same time get two (witness). Proved of the metaclass: calls that do not overlap get one object, and all later calls do once the first has returned and no other is under way; classes share no object."
  },
  {
   "property": "C121",
   "status": "proved",
   "theorems": [
    "C121_terminates",
    "C121_not_for_ever",
    "C121_comes_to_rest",
    "C121_outcome",
    "C121_call_can_end"
   ],
   "note": "For every network of clients and listeners and everything that happened before. At rest means that no step of the programs or the network changes anything. The cases in which the code loses an answer (C85) are part of the statement."
  },
  {
   "property": "C122",
   "status": "partial",
   "theorems": [
    "C122_client_gone_refuted",
    "C122_later_calls_refuted",
    "C122_only_then_partial",
    "C122_own_call_partial"
   ],
   "note": "The full property is false of the code: a callback that raises SystemExit or KeyboardInterrupt ends the event loop of the client; nothing is written or read any more, no callback is called, and later invoke_sync calls end in TimeoutError (universal refutations). Proved: nothing else ends the client, in particular not a callback that raises an Exception, and the call whose callback it was has been answered."
  },
  {
   "property": "C123",
   "status": "partial",
   "theorems": [
    "C123_never_answered_refuted",
    "C123_times_out_refuted",
    "C123_answered_at_once_partial"
   ],
   "note": "The full property is false of the code: a method that raises StopIteration is not answered while its request waits, which without a timeout is for ever; with one, the caller is told of a timeout when it expires (universal refutations; Python 3.5 to 3.9, see M_Exit). Proved: every other exception is answered at once, with status 3 or, for two of them, 7. That other requests are served as before is C119_others_served_partial."
  },
  {
   "property": "C124",
   "status": "partial",
   "theorems": [
    "C124_terminates",
    "C124_not_for_ever",
    "C124_comes_to_rest",
    "C124_sync_threaded",
    "C124_sync_asyncio_partial",
    "C124_sync_asyncio_ends_refuted",
    "C124_sync_can_end",
    "C124_asyncio"
   ],
   "note": "The whole property is false: at an asyncio listener a value that cannot be sent back (empty, not bytes, too long) leaves a synchronous call waiting until its timeout (witness). Proved, for every deployment and everything that happened before: termination, coming to rest, that calls to threaded listeners have returned their value, that calls to asyncio listeners have ended as their method did or wait for a value that cannot be sent, that they can always be completed, and the outcome of the calls of asyncio clients as in C121. At rest means that no step of the programs or the network changes anything; timeouts of synchronous calls count as disturbances."
  },
  {
   "property": "C125",
   "status": "partial",
   "theorems": [
    "C125_publish_partial",
    "C125_unpublish_partial",
    "C125_without_agent_refuted",
    "C125_never_known_refuted",
    "C125_others_moved_refuted",
    "C125_others_withdrawn_refuted",
    "C125_nothing_else",
    "C125_only_published"
   ],
   "note": "The full property is false of the code (universal refutations): a listener whose constructor could not reach the agent never publishes anything, and its publish() returns as if it had; the registry is shared, so publish() announces the interfaces of the other listeners on its own port, and unpublish() withdraws them. Proved: publish() and unpublish() that return do this for all interfaces of the process, nothing else changes what the agent knows, and what it knows was published."
  },
  {
   "property": "C126",
   "status": "proved",
   "theorems": [
    "C126_in_time",
    "C126_not_early",
    "C126_caller_is_told"
   ],
   "note": "Times of the asyncio listener (steps of M_AioServer with the times at which they are made) and of the synchronous client (M_SyncTime). That the event loop is prompt and its timers are right are hypotheses, stated in S_SrvTime; that a method which returns something unsendable leaves its caller without an answer is part of the statement (C50)."
  },
  {
   "property": "C127",
   "status": "partial",
   "theorems": [
    "C127_all_lost_refuted",
    "C127_nothing_lost_partial",
    "C127_can_still_make_partial"
   ],
   "note": "False as stated: C127_all_lost_refuted, a run of 107 steps of two threads after which, for every continuation in which nobody gives back a closed connection, get_conn never returns a connection again although none is open. Proved with the hypothesis that no two threads are about to change the number at the same time and nobody closes the pool; a socket that cannot be created costs one place each (C32)."
  },
  {
   "property": "C128",
   "status": "proved",
   "theorems": [
    "C128_reason",
    "C128_thread_error",
    "C128_thread_call"
   ],
   "note": "In the deployment model (M_Deploy): every error of a synchronous or oneway call is traced to one of five causes; the listeners are those of this library. That a call which cannot get a connection raises NameError, and that a failed send is not reported but ends in TimeoutError unless the socket fails, is what the code does and part of the statement."
  },
  {
   "property": "C129",
   "status": "partial",
   "theorems": [
    "C129_outcome_partial",
    "C129_world_partial",
    "C129_early_reply_is_lost_refuted"
   ],
   "note": "Proved, for the client alone and among listeners of this library: every outcome has a cause, and KeyError means that a reply with the id of the call was read. Refuted for all runs: a reply read while its call is still sending its request (in the second drain, or sending again) never reaches the call, even if it says SUCCESS; the call then ends in KeyError or is cancelled. A concrete run among threaded listeners is an Example."
  },
  {
   "property": "C130",
   "status": "partial",
   "theorems": [
    "C130_client_context_partial",
    "C130_sync_context_partial",
    "C130_deployed_sync_context_partial",
    "C130_prefix_refuted",
    "C130_header_refuted"
   ],
   "note": "Proved for all calls whose baggage is that of a context that processes can have, for asyncio and synchronous clients, listeners of both kinds and whatever the tracer of the listener did before and does for other connections. Refuted: with a baggage item named prefix the method is called in a new context, and a further header of the call that looks like a trace header adds an item."
  },
  {
   "property": "C131",
   "status": "partial",
   "theorems": [
    "C131_called_names_partial",
    "C131_other_names_are_refused_partial",
    "C131_thread_other_names_partial",
    "C131_incidental_names_refuted",
    "C131_thread_incidental_names_refuted"
   ],
   "note": "Proved: nothing is called under a name that the objects of the registered classes do not have, and such names are answered with NO_PROCESSOR by the asyncio listener and call nothing on the threaded one. Refuted for every class: a request that names a variable of the service object, __init__, __class__ or anything else that Python objects have anyway reaches a worker thread (or the handler thread), is called with the body as argument, and is answered with UNKNOWN or not at all."
  },
  {
   "property": "C132",
   "status": "partial",
   "theorems": [
    "C132_constructed_as_registered_partial",
    "C132_constructed_once",
    "C132_own_object",
    "C132_own_variables",
    "C132_only_unregistered_refused",
    "C132_registration_partial",
    "C132_names_refuted"
   ],
   "note": "Proved: each request calls the class registered last before it looked it up, once, with its own context first and exactly the arguments given at registration; no two requests share an object, and what a method finds in a variable of its object was put there by itself or by the constructor. Refuted: an argument of the constructor called self, interface or service_cls cannot be given by name, registering raises TypeError."
  },
  {
   "property": "C133",
   "status": "partial",
   "theorems": [
    "C133_closed_when_over_partial",
    "C133_closed_by_timeout_partial",
    "C133_bounded",
    "C133_only_one",
    "C133_in_use",
    "C133_kept_error_refuted"
   ],
   "note": "Proved for any number of calls in any interleaving: what a call opened is closed once it has returned, timed out, or its exception has been dropped; at most three connections per running call and one per kept exception are open; while a call waits for its answer it has one open; the connection in use is never closed by the ending of others. Refuted: a call that raises otherwise than by a timeout leaves its connection open for as long as the caller keeps the exception."
  },
  {
   "property": "C134",
   "status": "partial",
   "theorems": [
    "C134_terminates",
    "C134_not_for_ever",
    "C134_comes_to_rest",
    "C134_sync_threaded",
    "C134_sync_asyncio_partial",
    "C134_sync_asyncio_ends_refuted"
   ],
   "note": "Proved for any number of asyncio clients, synchronous calls and listeners of both kinds together: termination, coming to rest, and at rest the outcome of an undisturbed synchronous call at either kind of listener. Refuted: every synchronous call that nothing disturbed has then ended; a value that an asyncio listener cannot send leaves it waiting. What asyncio calls have come to at rest is in C85, C121 and C124."
  },
  {
   "property": "C135",
   "status": "partial",
   "theorems": [
    "C135_first_call_partial",
    "C135_later_call_waits_refuted",
    "C135_failing_call_waits_refuted"
   ],
   "note": "Proved, when nobody has anything left to do: a call whose request is the first on its connection to a threaded listener has ended with what the method returned, or with a KeyError because the answer came while the client was still flushing (C129). Refuted for the others: one whose request was written later on the same connection never ends, because the thread of a connection reads one request. Nor does the first one ever end if the thread does not know its service or method, or the method raises. Calls whose connection was lost or that were cancelled are excluded by hypotheses; C85 and C121 say what they come to."
  },
  {
   "property": "C136",
   "status": "partial",
   "theorems": [
    "C136_asyncio_partial",
    "C136_ends_refuted"
   ],
   "note": "Proved, when nobody has anything left to do: the method of every request on a connection to an asyncio listener has ended; if it returned bytes that can be sent the call has ended with them, or with a KeyError because the answer came while the client was still flushing (C129); if it raised, the call has ended with a KeyError; if it returned anything else, the call never ends. Refuted by that last case, with a history. Calls whose connection was lost or that were cancelled are excluded by hypotheses; C85 and C121 say what they come to."
  },
  {
   "property": "C137",
   "status": "partial",
   "theorems": [
    "C137_in_use_open",
    "C137_shut_closed",
    "C137_dropped",
    "C137_at_once_partial",
    "C137_collected_partial",
    "C137_lost_refuted"
   ],
   "note": "Proved for all histories of one thread: a connection that is lent, or idle in a pool its user has, is open unless the pool or a user closed it; as long as get_conn raised no error of the pool, every open connection is lent, idle in such a pool, or kept by an exception the caller has; and whatever was raised, each time the cyclic garbage collector has run. Refuted between its runs: a get_conn that takes the last free connection and may not make another loses it, and the error, which refers to itself, keeps it open."
  },
  {
   "property": "C138",
   "status": "partial",
   "theorems": [
    "C138_made",
    "C138_what_is_made",
    "C138_over_the_limit",
    "C138_no_socket",
    "C138_no_other_error",
    "C138_nothing_left_partial",
    "C138_collected_partial",
    "C138_waits_for_ever_refuted",
    "C138_left_open_refuted"
   ],
   "note": "Proved: exactly when the constructor returns a pool (with that many idle connections), raises EmptyPoolError and raises OSError, and that it raises nothing else for a valid key; after an OSError nothing stays open once the caller drops the error. Refuted: it waits for ever exactly when the free queue is shorter than the number of initial connections that can be made; and after an EmptyPoolError as many connections as the limit allows stay open until the cyclic garbage collector runs."
  },
  {
   "property": "C139",
   "status": "partial",
   "theorems": [
    "C139_in_turn_partial",
    "C139_overlap_refuted"
   ],
   "note": "Proved for any number of threads when at no moment two of them are in an operation of the pool: results and pool are those of one thread that does the same operations in the same order (connections are numbered differently if a socket could not be made). Refuted for overlapping operations: two threads get a connection each from a pool for one."
  },
  {
   "property": "C140",
   "status": "partial",
   "theorems": [
    "C140_manager_exit_partial",
    "C140_pool_exit",
    "C140_with_statement",
    "C140_manager_exit_idle_partial",
    "C140_pool_exit_idle",
    "C140_given_back_closed",
    "C140_manager_exit_refuted",
    "C140_closed_given_out_refuted",
    "C140_evicts_closed_refuted"
   ],
   "note": "Proved: a program that closes no pool itself leaves none open and keeps its own outcome; with pool closes the pool and keeps the outcome of its body if the pool was open until then. Refuted: if the manager has a closed pool when its with statement ends (with manager around with pool is enough), the outcome is AttributeError and the pools after it stay open; a pool closed by its with statement is given out again and every get_conn on it raises ClosedPoolError."
  },
  {
   "property": "C141",
   "status": "partial",
   "theorems": [
    "C141_agree_partial",
    "C141_took_effect_partial",
    "C141_refused_refuted",
    "C141_overlap_refuted"
   ],
   "note": "Proved: for an interface the application did not route itself, SERVICE_MAP and the agent agree whenever no call is between the two, if no two threads are halfway with it at the same time; a call whose posts are all accepted takes effect at the agent. Refuted: subscribe() returns in the same way when the agent refuses or there is no mesh client; a subscribe and an unsubscribe of two threads that overlap leave the map and the agent in disagreement, either way round."
  },
  {
   "property": "C142",
   "status": "partial",
   "theorems": [
    "C142_complete",
    "C142_not_before",
    "C142_alive_partial",
    "C142_sent_partial",
    "C142_held_up_refuted"
   ],
   "note": "Proved: a client that was returned is complete, has a heartbeat exactly if it has a mesh client, sends the first one not before 30 seconds, and sends it if the constructor took less than 30 seconds from asking for it to its end. Refuted: the heartbeat is started before the client is complete; a constructor that is held up there for 30 seconds returns a client whose heartbeat has ended for good."
  },
  {
   "property": "C143",
   "status": "partial",
   "theorems": [
    "C143_answered_partial",
    "C143_few_steps",
    "C143_startup_true",
    "C143_others_partial",
    "C143_unanswered_refuted",
    "C143_holds_up_refuted"
   ],
   "note": "Proved: when every post is answered all calls end, after at most three steps each, and a call other than startup() waits for its own answer only. Refuted: no post has a time limit, so a call whose post is not answered never ends; if it is a startup(), no startup() of another thread of the same mesh client begins."
  },
  {
   "property": "C144",
   "status": "partial",
   "theorems": [
    "C144_ids_partial",
    "C144_foreign_partial",
    "C144_in_list_partial",
    "C144_unhashable_refuted"
   ],
   "note": "Proved, for any inheritance relation: == of ids never fails and says whether class and value are the same, != is its opposite, an id is found in a list exactly if it is there, and == with an object of another kind is false if the id is on the left. Refuted: ids cannot be keys of dictionaries or members of sets; hash() of an id is always a TypeError."
  },
  {
   "property": "C145",
   "status": "partial",
   "theorems": [
    "C145_one_each_refuted",
    "C145_own_answer_partial",
    "C145_use_partial"
   ],
   "note": "Refuted for all runs: every constructor of a client or listener registers the application again, whatever was accepted before. Proved: these registrations are all there are, each says what the constructor was given without the empty values, alike for clients and listeners; an object works with the mesh exactly if its own registration was accepted, and posts nothing otherwise."
  },
  {
   "property": "C146",
   "status": "partial",
   "theorems": [
    "C146_in_use_open",
    "C146_shut_closed",
    "C146_at_once_partial",
    "C146_collected_partial",
    "C146_gone",
    "C146_cleared",
    "C146_manager_dropped",
    "C146_left_closed",
    "C146_lost_refuted"
   ],
   "note": "Proved for all histories: what can be used is open unless it was closed, what was closed is not open, and what is open can be used or is kept by an exception that its caller has, as long as no other exception of the pool is in memory, and always after a run of the garbage collector; dropping the manager closes what nobody else has. Refuted: a connection lost by a failing get_conn stays open until the garbage collector runs, though everything was let go of. Lookups whose new pool cannot be made are in C138."
  },
  {
   "property": "C147",
   "status": "partial",
   "theorems": [
    "C147_reading_partial",
    "C147_setdefault_partial",
    "C147_update_partial",
    "C147_pop_partial",
    "C147_size",
    "C147_pop_refuted",
    "C147_same_value_refuted",
    "C147_walk_refuted"
   ],
   "note": "Proved for all contents: the reading methods change no entry and dispose of nothing, setdefault, update and pop do what they do on a dict, and after any sequence of calls the size is kept. Refuted: pop gives a value that has been disposed of, setting a key to the value it has disposes of a value that stays held, and popitem, items, values, == and iteration always raise NotImplementedError. One thread; a dispose_func that raises is not covered here."
  },
  {
   "property": "C148",
   "status": "partial",
   "theorems": [
    "C148_text_partial",
    "C148_status_partial",
    "C148_pool_partial",
    "C148_copy_partial",
    "C148_prefix_refuted",
    "C148_server_copy_refuted",
    "C148_pool_text_refuted",
    "C148_pool_copy_refuted",
    "C148_value_refuted"
   ],
   "note": "Proved for all messages: errors of clients, listeners and packages say the message they were made with, status errors name the status and differ for different ones, errors of a pool have the pool and quote pool and message, and errors without a prefix survive any number of copies. Refuted: every copy of a server or client error repeats the kind of error, the text of a pool error is never the pool and the message, its copies lose both, and errors about keys and sockets have no pool and copies that say nothing."
  },
  {
   "property": "C149",
   "status": "partial",
   "theorems": [
    "C149_held",
    "C149_at_most_once",
    "C149_exactly_once_partial",
    "C149_caller",
    "C149_without",
    "C149_clear_refuted"
   ],
   "note": "Proved for all histories and all failures of dispose_func: what is held does not depend on them, no value is passed more often than it was stored, each is passed exactly once if no clear() raised, and the caller of an assignment or deletion gets the exception. Refuted: when dispose_func raises during clear(), the values after it are dropped without being passed. One thread; dispose_func does not use the container."
  },
  {
   "property": "C150",
   "status": "partial",
   "theorems": [
    "C150_different_keys_partial",
    "C150_results_partial",
    "C150_ends",
    "C150_size",
    "C150_setdefault_refuted",
    "C150_pop_refuted"
   ],
   "note": "Proved for all numbers of threads and all interleavings: calls with different keys give what they give alone if there is room for all; with any keys get and setdefault do not fail, pop fails with KeyError only, and values are those of the key; every call ends after two steps of its thread, and the size is kept. Refuted: of two threads that call setdefault with the same key each gets its own value, one of which is disposed of, and pop with a default raises KeyError when another thread pops the same key. Each thread makes one call."
  }
 ]
}