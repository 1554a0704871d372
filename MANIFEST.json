{
 "claims": [
  {
   "property": "C01",
   "status": "proved",
   "theorems": [
    "C01_fixed_header_roundtrip",
    "C01_remaining_length_decoder_exact",
    "C01_remaining_length_decoder_errors",
    "C01_large_remaining_length_refuted"
   ],
   "note": "Values above 2^28-1 are mis-encoded on 64-bit size_t: C01_large_remaining_length_refuted."
  },
  {
   "property": "C02",
   "status": "proved",
   "theorems": [
    "C02_connect_roundtrip",
    "C02_connack_roundtrip",
    "C02_publish_roundtrip",
    "C02_publish_accessors",
    "C02_ack_roundtrip",
    "C02_subscribe_roundtrip",
    "C02_suback_roundtrip",
    "C02_unsubscribe_roundtrip",
    "C02_connection_packets_roundtrip"
   ],
   "note": ""
  },
  {
   "property": "C03",
   "status": "proved",
   "theorems": [
    "C03_connect_two_wills_refuted",
    "C03_subscribe_short_buffer_refuted",
    "C03_subscribe_long_filter_refuted",
    "C02_connect_roundtrip",
    "C02_publish_roundtrip",
    "C02_subscribe_roundtrip",
    "C02_unsubscribe_roundtrip"
   ],
   "note": "Framing is carried by the wire predicate in the C02 round-trip theorems; SUBSCRIBE ignores write failures and long filters: refuted theorems; a CONNECT with two wills too."
  },
  {
   "property": "C04",
   "status": "proved",
   "theorems": [
    "C04_stream_semantics",
    "C04_consume_deterministic",
    "C04_fragmentation_independent"
   ],
   "note": ""
  },
  {
   "property": "C05",
   "status": "proved",
   "theorems": [
    "C05_never_aborts",
    "C05_errors_final",
    "C05_reset_fresh"
   ],
   "note": ""
  },
  {
   "property": "C06",
   "status": "partial",
   "theorems": [
    "C06_overlong_string_refuted",
    "C06_publish_decode_sound_partial"
   ],
   "note": "False of the code: C06_overlong_string_refuted is a counterexample; C06_publish_decode_sound_partial is the part that holds (non-empty delivered topic)."
  },
  {
   "property": "C07",
   "status": "proved",
   "theorems": [
    "C07_decode",
    "C07_decode_prefix",
    "C07_decode_more_data",
    "C07_decode_error",
    "C07_round_trip",
    "C07_encode",
    "C07_too_large_refused"
   ],
   "note": ""
  },
  {
   "property": "C08",
   "status": "proved",
   "theorems": [
    "C08_buffer_independence",
    "C08_deterministic",
    "C08_one_large_buffer",
    "C08_terminates",
    "C08_partly_filled_buffer",
    "C08_small_buffers_stall"
   ],
   "note": ""
  },
  {
   "property": "C09",
   "status": "proved",
   "theorems": [
    "C09_framing",
    "C09_others_expressible",
    "C09_checked_below_overflow",
    "C09_packet_id_completes"
   ],
   "note": ""
  },
  {
   "property": "C10",
   "status": "proved",
   "theorems": [
    "C10_server_stream",
    "C10_client_packets",
    "C10_expressible",
    "C10_unambiguous"
   ],
   "note": ""
  },
  {
   "property": "C11",
   "status": "proved",
   "theorems": [
    "C11_stream_semantics",
    "C11_consume_deterministic",
    "C11_fragmentation_independent"
   ],
   "note": ""
  },
  {
   "property": "C12",
   "status": "proved",
   "theorems": [
    "C12_never_loops",
    "C12_errors_final",
    "C12_reset_fresh",
    "C12_unambiguous",
    "C12_overlong_properties_rejected",
    "C12_suback_length_refuted",
    "C12_lenient_refuted"
   ],
   "note": "SUBACK and UNSUBACK property lengths are not checked, and some malformed packets are accepted: C12_suback_length_refuted, C12_lenient_refuted (findings, part of the statement)."
  },
  {
   "property": "C13",
   "status": "proved",
   "theorems": [
    "C13_topic_accepted_iff_name",
    "C13_filter_accepted_iff_filter"
   ],
   "note": ""
  },
  {
   "property": "C14",
   "status": "proved",
   "theorems": [
    "C14_codepoint_rejected_iff_forbidden",
    "C14_text_accepted_iff_mqtt_text",
    "C14_text_has_one_reading"
   ],
   "note": ""
  },
  {
   "property": "C15",
   "status": "proved",
   "theorems": [
    "C15_shared_iff_form",
    "C15_share_name_letter_case_refuted",
    "C15_counted_part_unique",
    "C15_iot_core_filter_limits",
    "C15_iot_core_topic_limits"
   ],
   "note": "The letter-case deviation for $share is C15_share_name_letter_case_refuted (part of the statement)."
  },
  {
   "property": "C16",
   "status": "proved",
   "theorems": [
    "C16_dispatch_exact",
    "C16_parent_level_refuted"
   ],
   "note": "The deviation for 'a/#' on 'a' is C16_parent_level_refuted (part of the statement)."
  },
  {
   "property": "C17",
   "status": "partial",
   "theorems": [
    "C17_safe_histories_partial",
    "C17_use_after_free_refuted",
    "C17_duplicate_in_request_refuted"
   ],
   "note": "False of the code in general: C17_use_after_free_refuted and C17_duplicate_in_request_refuted. Proved for histories that never unsubscribe a filter above another one in force and never name a filter twice in one request (C17_safe_histories_partial)."
  },
  {
   "property": "C18",
   "status": "proved",
   "theorems": [
    "C18_views_agree",
    "C18_dispatch_exact",
    "C18_invalid_topic_twice_refuted"
   ],
   "note": ""
  },
  {
   "property": "C19",
   "status": "proved",
   "theorems": [
    "C19_inbound_alias_exact",
    "C19_no_alias_untouched"
   ],
   "note": ""
  },
  {
   "property": "C20",
   "status": "proved",
   "theorems": [
    "C20_outbound_alias_faithful",
    "C20_reports_cover_publishes"
   ],
   "note": ""
  },
  {
   "property": "C21",
   "status": "proved",
   "theorems": [
    "C21_never_exceeds_maximum",
    "C21_granted_bounded_by_rate",
    "C21_no_drift",
    "C21_long_pause_refuted"
   ],
   "note": "Clock pauses so long that rate*seconds overflows 64 bits are excluded; C21_long_pause_refuted shows why."
  },
  {
   "property": "C22",
   "status": "proved",
   "theorems": [
    "C22_wait_exact"
   ],
   "note": ""
  },
  {
   "property": "C23",
   "status": "partial",
   "theorems": [
    "C23_ids_distinct_partial",
    "C23_ids_distinct_refuted"
   ],
   "note": "False of the code for one offline queue policy (C23_ids_distinct_refuted); proved for the others."
  },
  {
   "property": "C24",
   "status": "proved",
   "theorems": [
    "C24_receive_maximum"
   ],
   "note": "Holds as long as no assertion has failed; C43 says exactly when one does."
  },
  {
   "property": "C25",
   "status": "proved",
   "theorems": [
    "C25_at_most_once",
    "C25_completes_what_was_submitted",
    "C25_success_means_acknowledged",
    "C25_success_means_sent",
    "C25_failure_without_packet"
   ],
   "note": "Holds as long as no assertion has failed; C43 says exactly when one does."
  },
  {
   "property": "C26",
   "status": "proved",
   "theorems": [
    "C26_incomplete",
    "C26_unacknowledged",
    "C26_bytes_sent_refuted"
   ],
   "note": "Sizes are taken before a packet id is assigned: C26_bytes_sent_refuted shows the reported size is two bytes short of what a QoS 1 publish takes on the wire (finding F16, part of the statement)."
  },
  {
   "property": "C27",
   "status": "proved",
   "theorems": [
    "C27_lifecycle",
    "C27_lifecycle_always"
   ],
   "note": "Holds as long as no assertion has failed; C43 says exactly when one does."
  },
  {
   "property": "C28",
   "status": "proved",
   "theorems": [
    "C28_refused_offline",
    "C28_offline_error",
    "C28_kept"
   ],
   "note": "Holds as long as no assertion has failed; C43 says exactly when one does."
  },
  {
   "property": "C29",
   "status": "proved",
   "theorems": [
    "C29_in_order",
    "C29_first",
    "C29_exactly",
    "C29_delivered",
    "C29_delivered_once"
   ],
   "note": "Assumes no assertion has failed, server maximum packet sizes of at least 4 and fewer than 2^64 - 1 events."
  },
  {
   "property": "C30",
   "status": "proved",
   "theorems": [
    "C30_order",
    "C30_redelivery"
   ],
   "note": "Holds as long as no assertion has failed; C43 says exactly when one does."
  },
  {
   "property": "C31",
   "status": "partial",
   "theorems": [
    "C31_only_overdue_partial",
    "C31_none_overdue_partial"
   ],
   "note": "Proved for all configurations: no operation that is not overdue is reported to have timed out. That none is left over is proved unless the client is configured to fail only QoS 0 publishes while offline; missing for that policy, where C23 fails."
  },
  {
   "property": "C32",
   "status": "proved",
   "theorems": [
    "C32_wait"
   ],
   "note": "Assumes no assertion has failed. The wait is the time between a clock reading no earlier than the last lifecycle event and the attempt. The exact form assumes a configured minimum below 2^64 ms (it is a 64-bit field)."
  },
  {
   "property": "C33",
   "status": "proved",
   "theorems": [
    "C33_ping",
    "C33_answer",
    "C33_only"
   ],
   "note": "Assumes no assertion has failed, a clock that does not run backwards and stays below 2^64 - 1, server maximum packet sizes of at least 4 and fewer than 2^64 - 1 events. That the service task is scheduled in time is C47; that it then runs is the event loop."
  },
  {
   "property": "C34",
   "status": "proved",
   "theorems": [
    "C34_handles",
    "C34_unusable",
    "C34_usable",
    "C29_exactly"
   ],
   "note": "That an accepted use queues exactly one PUBACK with the right packet id is C29_exactly. Assumes no assertion has failed, server maximum packet sizes of at least 4 and fewer than 2^64 - 1 events."
  },
  {
   "property": "C35",
   "status": "partial",
   "theorems": [
    "C35_stop_makes_progress_partial",
    "C35_stop_makes_progress_refuted"
   ],
   "note": "False of the code: C35_stop_makes_progress_refuted. Proved: in every state but the one in which the client waits to send its DISCONNECT behind something else, the service task is scheduled or the channel has an answer to give. Assumes no assertion has failed and a clock as in C47."
  },
  {
   "property": "C36",
   "status": "proved",
   "theorems": [
    "C36_settings_agreed",
    "C36_limits_kept"
   ],
   "note": "Holds as long as no assertion has failed; C43 says exactly when one does."
  },
  {
   "property": "C37",
   "status": "partial",
   "theorems": [
    "C37_packet_id_refuted",
    "C37_alias_refuted",
    "C37_size_respected_partial",
    "C37_excess_bounded_partial"
   ],
   "note": "False of the code: C37_packet_id_refuted and C37_alias_refuted are counterexamples. Proved: the limit holds for packets that need no new identifier or alias, and is never exceeded by more than seven bytes."
  },
  {
   "property": "C38",
   "status": "proved",
   "theorems": [
    "C38_cleanup_exactly_once",
    "C38_null_user_data_refuted"
   ],
   "note": "With NULL user data: C38_null_user_data_refuted (part of the statement)."
  },
  {
   "property": "C39",
   "status": "proved",
   "theorems": [
    "C39_enumerates_subscriptions",
    "C39_cleanup_exactly_once",
    "C39_roll_back_leak_refuted"
   ],
   "note": "The leak on roll-back is C39_roll_back_leak_refuted (part of the statement)."
  },
  {
   "property": "C40",
   "status": "proved",
   "theorems": [
    "C40_publish",
    "C40_connect",
    "C40_subscribe",
    "C40_unsubscribe",
    "C40_disconnect"
   ],
   "note": ""
  },
  {
   "property": "C43",
   "status": "proved",
   "theorems": [
    "C43_assertions"
   ],
   "note": ""
  },
  {
   "property": "C44",
   "status": "partial",
   "theorems": [
    "C44_finished_when_stopped_partial",
    "C44_lost_only_if_partial",
    "C44_refuted"
   ],
   "note": "False of the code: C44_refuted. Proved: every operation has been completed or dropped by then, and a user operation is dropped only in the listed cases."
  },
  {
   "property": "C45",
   "status": "partial",
   "theorems": [
    "C45_hostile_server_refuted",
    "C45_flow_control_refuted",
    "C43_assertions"
   ],
   "note": "False of the code: two counterexamples; C43 confines the failures."
  },
  {
   "property": "C46",
   "status": "partial",
   "theorems": [
    "C46_lifecycle_refuted",
    "C27_lifecycle_always"
   ],
   "note": "False of the code: counterexample; C27_lifecycle_always is what holds."
  },
  {
   "property": "C47",
   "status": "proved",
   "theorems": [
    "C47_scheduled",
    "C47_ping",
    "C47_acknowledgement"
   ],
   "note": "Assumes no assertion has failed. In the two states in which messages are sent while the operations in question are rate limited (extended validation and flow control) no claim is made about when the next one is sent. C47_acknowledgement excludes the offline queue policy FAIL_QOS0_PUBLISH as C31 does."
  },
  {
   "property": "C48",
   "status": "proved",
   "theorems": [
    "C48_connect",
    "C48_session"
   ],
   "note": "Assumes no assertion has failed. Attempts are identified by the ATTEMPTING_CONNECT event; the conditions are on what had happened before it."
  },
  {
   "property": "C54",
   "status": "proved",
   "theorems": [
    "C54_subscription_budget",
    "C54_subscription_total"
   ],
   "note": ""
  },
  {
   "property": "C55",
   "status": "proved",
   "theorems": [
    "C55_no_assertion_fails",
    "C55_one_request_per_filter"
   ],
   "note": ""
  },
  {
   "property": "C50",
   "status": "partial",
   "theorems": [
    "C50_completed_once_partial",
    "C50_completed_twice_at_most",
    "C50_completed_once_refuted",
    "C50_completed_in_the_end"
   ],
   "note": "False of the code: C50_completed_once_refuted (finding F17). Proved: at most once unless the request is taken from the queue after its completion, never more than twice, and at least once by the end of shutdown."
  },
  {
   "property": "C53",
   "status": "partial",
   "theorems": [
    "C53_published_once",
    "C53_published_before_completion_partial",
    "C53_published_before_completion_refuted",
    "C53_only_when_subscribed"
   ],
   "note": "Publishing at most once, and only once all response filters are subscribed, is proved. Publishing after completion is possible: C53_published_before_completion_refuted (F17); proved that it does not happen unless the request is taken from the queue after its completion."
  },
  {
   "property": "C51",
   "status": "proved",
   "theorems": [
    "C51_not_early",
    "C51_on_time"
   ],
   "note": ""
  },
  {
   "property": "C52",
   "status": "partial",
   "theorems": [
    "C52_response_matches_partial",
    "C52_own_path_refuted"
   ],
   "note": "False of the code: C52_own_path_refuted (finding F18). Proved: the message arrived and bears the token of the request at a path which some request gave for its topic."
  },
  {
   "property": "C56",
   "status": "proved",
   "theorems": [
    "C56_reasons"
   ],
   "note": ""
  },
  {
   "property": "C57",
   "status": "partial",
   "theorems": [
    "C57_delivered_once_partial",
    "C57_parent_level_refuted",
    "C57_only_in_use"
   ],
   "note": "False of the code in one case: C57_parent_level_refuted (finding F19). Proved for all other filters and topics."
  },
  {
   "property": "C58",
   "status": "partial",
   "theorems": [
    "C58_published_when_subscribed_refuted",
    "C58_published_at_once_partial"
   ],
   "note": "Proved that a request which finds all its filters subscribed when it is taken from the queue is published at once. Refuted in general: C58_published_when_subscribed_refuted (F20)."
  },
  {
   "property": "C60",
   "status": "proved",
   "theorems": [
    "C60_packet_ids",
    "C60_queue_full"
   ],
   "note": ""
  },
  {
   "property": "C61",
   "status": "proved",
   "theorems": [
    "C61_completed_at_most_once",
    "C61_completed_in_the_end",
    "C61_nothing_after_the_end",
    "C61_completed_once_made"
   ],
   "note": ""
  },
  {
   "property": "C62",
   "status": "partial",
   "theorems": [
    "C62_success_has_its_reason_partial",
    "C62_success_has_its_reason_refuted",
    "C62_failure_has_its_reason"
   ],
   "note": "False of the code: an acknowledgement of any type will do (C62_success_has_its_reason_refuted, F21). Proved: some acknowledgement with the id has just arrived, and the reasons of failures."
  },
  {
   "property": "C63",
   "status": "proved",
   "theorems": [
    "C63_packets_sent"
   ],
   "note": ""
  },
  {
   "property": "C64",
   "status": "partial",
   "theorems": [
    "C64_sent_in_order_partial",
    "C64_numbers",
    "C64_sent_in_order_refuted"
   ],
   "note": "False of the code: C64_sent_in_order_refuted (F22). Proved: operations are sent for the first time in order."
  },
  {
   "property": "C65",
   "status": "proved",
   "theorems": [
    "C65_clean_session_forgets",
    "C65_sent_in_its_session"
   ],
   "note": "Assumes that nothing undefined has happened (m_crash)."
  },
  {
   "property": "C66",
   "status": "proved",
   "theorems": [
    "C66_sent_on_this_connection",
    "C66_tasks_run"
   ],
   "note": "Assumes that nothing undefined has happened (m_crash)."
  },
  {
   "property": "C67",
   "status": "partial",
   "theorems": [
    "C67_not_too_early",
    "C67_in_time_partial",
    "C67_in_time_refuted"
   ],
   "note": "False of the code: C67_in_time_refuted (F23): a publish whose packet the channel did not take has no timeout. Proved otherwise; never early."
  },
  {
   "property": "C68",
   "status": "partial",
   "theorems": [
    "C68_interrupted",
    "C68_resumed",
    "C68_disconnected",
    "C68_closed",
    "C68_connection_complete",
    "C68_connection_success",
    "C68_connection_failure",
    "C68_connect_while_disconnected",
    "C68_completed_once_refuted"
   ],
   "note": "Each call being answered once is false of the code: C68_completed_once_refuted (F24). The rest is proved, except that success may be reported while connected, which needs a second CONNACK."
  },
  {
   "property": "C69",
   "status": "proved",
   "theorems": [
    "C69_delivered_to_each",
    "C69_delivered_only_then",
    "C69_any_only_then"
   ],
   "note": "That packets before the CONNACK of a first connection are refused is in the model but not in a theorem. Assumes that the subscription tree does not run out of memory."
  },
  {
   "property": "C70",
   "status": "partial",
   "theorems": [
    "C70_publish_answered",
    "C70_pubrec_answered",
    "C70_pubrel_answered",
    "C70_answers_only",
    "C70_exactly_once_refuted",
    "C70_not_published_again_refuted"
   ],
   "note": "The acknowledgements are proved. That a QoS 2 message is taken once is false of the code, in both directions: C70_exactly_once_refuted (F25), C70_not_published_again_refuted (F26)."
  },
  {
   "property": "C71",
   "status": "partial",
   "theorems": [
    "C71_resubscribes_to_all_partial",
    "C71_resubscribes_to_all_refuted"
   ],
   "note": "False of the code for shared subscriptions: C71_resubscribes_to_all_refuted (F27). Proved up to the $share/group/ prefix."
  },
  {
   "property": "C72",
   "status": "partial",
   "theorems": [
    "C72_user_name_kept_partial",
    "C72_values",
    "C72_metadata",
    "C72_metadata_kept",
    "C72_no_metrics",
    "C72_invalid_refused",
    "C72_plain_case",
    "C72_size_query",
    "C72_user_name_kept_refuted",
    "C72_question_mark_refuted"
   ],
   "note": "False of the code in corner cases: C72_user_name_kept_refuted and C72_question_mark_refuted (F28). Proved for metrics without the separators, if the user name has no parameter \"=\"."
  },
  {
   "property": "C73",
   "status": "partial",
   "theorems": [
    "C73_no_null_pointer_partial",
    "C73_no_null_pointer_refuted"
   ],
   "note": "False of the code: C73_no_null_pointer_refuted (F29). Proved when an output buffer is given."
  },
  {
   "property": "C74",
   "status": "proved",
   "theorems": [
    "C74_offered"
   ],
   "note": "Assumes fewer than 2^64 - 1 operations and a user that acquires and releases only what it holds; task cancellation at event loop shutdown is not modelled."
  },
  {
   "property": "C75",
   "status": "proved",
   "theorems": [
    "C75_told"
   ],
   "note": "Assumes fewer than 2^64 - 1 operations and a user that acquires and releases only what it holds; task cancellation at event loop shutdown is not modelled."
  },
  {
   "property": "C76",
   "status": "proved",
   "theorems": [
    "C76_between",
    "C76_terminated",
    "C76_terminates",
    "C76_safe",
    "C76_client_held"
   ],
   "note": "Assumes fewer than 2^64 - 1 operations and a user that acquires and releases only what it holds; task cancellation at event loop shutdown is not modelled."
  },
  {
   "property": "C77",
   "status": "proved",
   "theorems": [
    "C77_once",
    "C77_shut_down"
   ],
   "note": "Assumes that the client completes only what it took and each operation once (C25, C61), and that the adapter is not used after it is terminated (C76)."
  },
  {
   "property": "C78",
   "status": "proved",
   "theorems": [
    "C78_answer",
    "C78_call"
   ],
   "note": "Assumes that the client completes only what it took and each operation once (C25, C61), and that a 3.1.1 SUBACK completion carries one QoS."
  },
  {
   "property": "C79",
   "status": "proved",
   "theorems": [
    "C79_safe",
    "C79_last",
    "C79_passed"
   ],
   "note": "Assumes that the client completes only what it took and each operation once (C25, C61), and that the adapter is not used after it is terminated (C76)."
  },
  {
   "property": "C80",
   "status": "partial",
   "theorems": [
    "C80_at_most_once",
    "C80_answered",
    "C80_answered_refuted",
    "C80_reason",
    "C80_starts"
   ],
   "note": "That the callback is called is false of the code if others stop the client while a connect waits: C80_answered_refuted (F30); proved otherwise. Assumes that a connection attempt never fails with the code for success, that callbacks are set and that tasks are not cancelled."
  },
  {
   "property": "C81",
   "status": "proved",
   "theorems": [
    "C81_at_most_once",
    "C81_answered"
   ],
   "note": "Assumes that a connection attempt never fails with the code for success, that callbacks are set and that tasks are not cancelled."
  },
  {
   "property": "C82",
   "status": "proved",
   "theorems": [
    "C82_only_then",
    "C82_relayed",
    "C82_translated",
    "C82_silent"
   ],
   "note": "Assumes that a connection attempt never fails with the code for success, that callbacks are set and that tasks are not cancelled."
  },
  {
   "property": "C83",
   "status": "proved",
   "theorems": [
    "C83_ids",
    "C83_different",
    "C83_call"
   ],
   "note": "Assumes that the client completes an operation at most once (C25), that the listener detaches once (C76), that creating the MQTT 5 operation succeeds once the 3.1.1 checks have passed, that callbacks are set and that tasks are not cancelled."
  },
  {
   "property": "C84",
   "status": "proved",
   "theorems": [
    "C84_at_most_once",
    "C84_completed",
    "C84_all",
    "C84_why"
   ],
   "note": "Assumes that the client completes an operation at most once (C25), that the listener detaches once (C76), that creating the MQTT 5 operation succeeds once the 3.1.1 checks have passed, that callbacks are set and that tasks are not cancelled."
  },
  {
   "property": "C85",
   "status": "proved",
   "theorems": [
    "C85_safe",
    "C85_last",
    "C85_destroys"
   ],
   "note": "Assumes that the client completes an operation at most once (C25), that the listener detaches once (C76), that creating the MQTT 5 operation succeeds once the 3.1.1 checks have passed, that callbacks are set and that tasks are not cancelled."
  },
  {
   "property": "C86",
   "status": "proved",
   "theorems": [
    "C86_published_apart",
    "C86_taken_apart"
   ],
   "note": ""
  },
  {
   "property": "C87",
   "status": "partial",
   "theorems": [
    "C87_taken_when_free_refuted"
   ],
   "note": "False of the code, as C87_taken_when_free_refuted shows (F31): the end of a request does not wake the client. Not proved: that the request is taken at the next run of the service task if nothing is in its way (C86_case is an example)."
  },
  {
   "property": "C88",
   "status": "proved",
   "theorems": [
    "C88_taken_in_order"
   ],
   "note": ""
  }
 ]
}