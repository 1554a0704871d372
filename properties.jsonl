{"id": "C01", "title": "MQTT 3.1.1 remaining length survives the wire", "statement": "Writing a fixed header whose remaining length is n and reading it back gives the same packet type, flags and n, consuming exactly the bytes written, whenever n < 2^28; and the bytes written are a legal MQTT variable byte integer of minimal length. For larger n the encoder must refuse (it does not: refuted part).", "quantifier": "every packet type, every flag nibble legal for it, every 32-bit remaining length, every trailing byte string", "why_tests_cant": "2^32 lengths times every continuation; the boundary cases at 128^k and 2^28 and the 5-byte overflow are only sampled by tests", "anchors": ["source/fixed_header.c:s_encode_remaining_length", "source/fixed_header.c:aws_mqtt311_decode_remaining_length", "source/fixed_header.c:aws_mqtt_fixed_header_encode", "source/fixed_header.c:aws_mqtt_fixed_header_decode"]}
{"id": "C02", "title": "MQTT 3.1.1 packets round trip", "statement": "For each packet kind (CONNECT, CONNACK, PUBLISH, PUBACK/PUBREC/PUBREL/PUBCOMP/UNSUBACK, SUBSCRIBE, SUBACK, UNSUBSCRIBE, PINGREQ/PINGRESP/DISCONNECT) built through its init/add functions within protocol limits, encoding succeeds and decoding the produced bytes gives back the same packet.", "quantifier": "every field value, every string up to 65535 bytes, every number of topics, every payload", "why_tests_cant": "unbounded field contents and list lengths; tests fix a handful of literals", "anchors": ["source/packets.c", "include/aws/mqtt/private/packets.h"]}
{"id": "C03", "title": "MQTT 3.1.1 packets are framed exactly", "statement": "The remaining length announced by an encoded 3.1.1 packet equals the number of bytes that follow it, so a receiver can never desynchronise, for every packet that can be built with strings of at most 65535 bytes; a SUBSCRIBE/UNSUBSCRIBE whose filter is longer must not be encoded (it is, with the filter silently missing: refuted part).", "quantifier": "every packet value that can be built with the init/add API", "why_tests_cant": "needs all lengths and list sizes, including sums near the limits", "anchors": ["source/packets.c:aws_mqtt_packet_connect_encode", "source/packets.c:aws_mqtt_packet_subscribe_encode", "source/packets.c:s_encode_buffer"]}
{"id": "C04", "title": "MQTT 3.1.1 stream decoding does not depend on fragmentation", "statement": "Feeding a byte stream to the 3.1.1 decoder in any sequence of chunks invokes the packet handlers with the same packets in the same order, and ends with the same success/failure outcome, as feeding it in one piece.", "quantifier": "every byte stream, every way to cut it, every handler behaviour", "why_tests_cant": "exponentially many fragmentations of unboundedly many streams, valid and malformed", "anchors": ["source/mqtt311_decoder.c:aws_mqtt311_decoder_on_bytes_received", "source/mqtt311_decoder.c:s_aws_mqtt311_decoder_safe_packet_handle"]}
{"id": "C05", "title": "MQTT 3.1.1 decoder errors are final and the decoder never aborts", "statement": "No byte stream can trip an assertion of the 3.1.1 decoder; once it reports a failure every later call fails and no further packet is delivered until it is reset for a new connection, after which it behaves like a fresh decoder.", "quantifier": "every byte stream, every history of calls, every handler behaviour", "why_tests_cant": "adversarial inputs and histories are unbounded", "anchors": ["source/mqtt311_decoder.c"]}
{"id": "C06", "title": "MQTT 3.1.1 malformed strings are rejected", "statement": "A received packet whose length-prefixed string claims more bytes than the packet has is reported as an error rather than delivered to the user. (The decoder delivers it with an empty string: refuted.)", "quantifier": "every received packet", "why_tests_cant": "tests only feed well-formed prefixes", "anchors": ["source/packets.c:s_decode_buffer", "source/packets.c:aws_mqtt_packet_publish_decode"]}
{"id": "C07", "title": "MQTT5 variable length integers round trip", "statement": "For every value up to 268435455 the number of bytes written equals the size computed beforehand, is minimal, and decoding returns the value and exactly the rest; larger values are refused; decoding any prefix of an encoding asks for more data rather than failing.", "quantifier": "every 32-bit value, every continuation, every prefix", "why_tests_cant": "value space and prefixes are too large to enumerate at every boundary", "anchors": ["source/v5/mqtt5_encoder.c:aws_mqtt5_get_variable_length_encode_size", "source/v5/mqtt5_encoder.c:aws_mqtt5_encode_variable_length_integer", "source/v5/mqtt5_decoder.c:aws_mqtt5_decode_vli"]}
{"id": "C08", "title": "MQTT5 encoding does not depend on buffer sizes", "statement": "Encoding a packet into any sequence of output buffers, each with at least 4 bytes of capacity, terminates and produces the same concatenated bytes as encoding it into one large buffer.", "quantifier": "every packet, every sequence of buffer capacities", "why_tests_cant": "resumption points can fall anywhere in any packet", "anchors": ["source/v5/mqtt5_encoder.c:aws_mqtt5_encoder_encode_to_buffer", "source/v5/mqtt5_encoder.c:s_execute_encode_step"]}
{"id": "C09", "title": "MQTT5 packets are framed exactly", "statement": "For every packet that passes option validation, the remaining length and every property-section length written on the wire equal the number of bytes that follow, and the size reported by the encoded-size query equals the total number of bytes produced.", "quantifier": "every validated CONNECT/PUBLISH/PUBACK/SUBSCRIBE/UNSUBSCRIBE/PINGREQ/DISCONNECT value", "why_tests_cant": "all subsets of optional properties times all lengths", "anchors": ["source/v5/mqtt5_encoder.c:s_compute_publish_variable_length_fields", "source/v5/mqtt5_encoder.c:aws_mqtt5_packet_view_get_encoded_size"]}
{"id": "C10", "title": "MQTT5 packets mean what they say", "statement": "The bytes the client sends for a packet parse, under an independent reading of the MQTT5 specification, to exactly the packet the user described; the bytes a conforming server sends decode to exactly the packet it described.", "quantifier": "every packet value of each type", "why_tests_cant": "all subsets of optional properties, lengths, list sizes", "anchors": ["source/v5/mqtt5_encoder.c", "source/v5/mqtt5_decoder.c"]}
{"id": "C11", "title": "MQTT5 stream decoding does not depend on fragmentation", "statement": "Feeding a byte stream to the MQTT5 decoder in any sequence of chunks delivers the same packets in the same order and ends in the same outcome as feeding it in one piece.", "quantifier": "every byte stream, every way to cut it", "why_tests_cant": "exponentially many fragmentations of unboundedly many streams", "anchors": ["source/v5/mqtt5_decoder.c:aws_mqtt5_decoder_on_data_received"]}
{"id": "C12", "title": "MQTT5 decoder errors are final and malformed packets are rejected", "statement": "After a decode failure the decoder delivers nothing more until reset; a CONNACK, PUBLISH, PUBACK or DISCONNECT whose property length exceeds the packet is rejected without being delivered; exactly the packets of a written-down (slightly lenient) format are accepted, each with one meaning. Deviations from MQTT 5, shown as refuted theorems: SUBACK/UNSUBACK property lengths are not checked; QoS 3, packet identifier 0, SUBACK flags and repeated properties are accepted.", "quantifier": "every byte stream and history", "why_tests_cant": "adversarial inputs are unbounded", "anchors": ["source/v5/mqtt5_decoder.c:s_read_suback_property", "source/v5/mqtt5_decoder.c:s_aws_mqtt5_decoder_decode_suback"]}
{"id": "C13", "title": "Topic and topic filter validation follows the MQTT grammar", "statement": "A string is accepted as a topic iff it is non-empty, at most 65535 bytes and has no wildcard; it is accepted as a filter iff additionally every '+' fills a whole level and '#' fills the whole last level.", "quantifier": "every byte string", "why_tests_cant": "the string space is infinite", "anchors": ["source/mqtt.c:aws_mqtt_is_valid_topic", "source/mqtt.c:aws_mqtt_is_valid_topic_filter", "source/mqtt.c:s_is_valid_topic"]}
{"id": "C14", "title": "UTF-8 text restrictions are exactly the MQTT ones", "statement": "A Unicode code point is rejected in MQTT text iff it is a control character U+0000..U+001F or U+007F..U+009F, or a non-character.", "quantifier": "every Unicode code point", "why_tests_cant": "1.1 million code points; tests sample", "anchors": ["source/mqtt.c:aws_mqtt_utf8_decoder", "source/mqtt.c:aws_mqtt_validate_utf8_text"]}
{"id": "C15", "title": "Shared subscription and IoT Core topic helpers follow their grammar", "statement": "A filter is treated as a shared subscription iff it has the form $share/<group>/<filter> with a non-empty wildcard-free group and a non-empty filter (the implementation also accepts other letter cases of $share: refuted part); topics are accepted for IoT Core iff within its length and level-count limits after skipping a rules prefix.", "quantifier": "every byte string", "why_tests_cant": "the string space is infinite", "anchors": ["source/v5/mqtt5_utils.c:aws_mqtt_is_topic_filter_shared_subscription", "source/v5/mqtt5_utils.c:aws_mqtt5_topic_skip_aws_iot_core_uncounted_prefix"]}
{"id": "C16", "title": "MQTT 3.1.1 subscriptions receive exactly the matching messages", "statement": "After any history of subscribe, unsubscribe and roll-back, an incoming message on a valid topic invokes exactly the callbacks of the subscriptions in force whose filter matches the topic, each once; matching is by the MQTT rules except that 'a/#' is not invoked for topic 'a' (a deviation, shown by a counterexample). Histories on which the tree faults (C17) are excluded.", "quantifier": "every history of insert/remove/commit/rollback, every topic", "why_tests_cant": "unbounded histories and tree shapes", "anchors": ["source/topic_tree.c:aws_mqtt_topic_tree_publish", "source/topic_tree.c:s_topic_tree_publish_do_recurse", "source/topic_tree.c:aws_mqtt_topic_tree_transaction_insert"]}
{"id": "C17", "title": "Topic tree memory safety", "statement": "No history of subscribe/unsubscribe transactions makes the topic tree read a topic string it has already freed. (Refuted: unsubscribing a filter and then a longer filter below it frees a string that a surviving ancestor still points to.)", "quantifier": "every history of transactions", "why_tests_cant": "needs a precise history and an ownership argument; only visible under a memory checker on that history", "anchors": ["source/topic_tree.c:s_topic_node_destroy", "source/topic_tree.c:s_topic_tree_action_commit"]}
{"id": "C18", "title": "Subscription set matching is exact", "statement": "After any history of add/remove, is-subscribed, the enumeration of subscriptions, and message dispatch all agree with the set of filters added and not removed; a message on a valid topic invokes each matching filter exactly once (including 'a/#' for topic 'a').", "quantifier": "every history of add/remove, every topic", "why_tests_cant": "unbounded histories and tree shapes", "anchors": ["source/mqtt_subscription_set.c"]}
{"id": "C19", "title": "Inbound topic aliases resolve to what the server registered", "statement": "A received PUBLISH carrying only an alias is delivered with the topic most recently registered for this alias on this connection; aliases outside 1..maximum or never registered are protocol errors; nothing survives a reconnect.", "quantifier": "every sequence of received publishes and reconnects", "why_tests_cant": "history-dependent", "anchors": ["source/v5/mqtt5_topic_alias.c:aws_mqtt5_inbound_topic_alias_resolver_register_alias", "source/v5/mqtt5_topic_alias.c:aws_mqtt5_inbound_topic_alias_resolver_resolve_alias", "source/v5/mqtt5_decoder.c:s_aws_mqtt5_decoder_decode_publish"]}
{"id": "C20", "title": "Outbound topic aliasing never misdirects a message", "statement": "Whatever aliasing mode is used, a conforming server that replays the alias registrations it receives reconstructs, for every PUBLISH, exactly the topic the user asked for, and never sees alias 0 or an alias above the maximum it announced.", "quantifier": "every sequence of publishes, resets and every announced maximum", "why_tests_cant": "cache eviction histories are unbounded", "anchors": ["source/v5/mqtt5_topic_alias.c:s_aws_mqtt5_outbound_topic_alias_resolver_lru_resolve_outbound_publish_fn", "source/v5/mqtt5_topic_alias.c:s_aws_mqtt5_outbound_topic_alias_resolver_manual_resolve_outbound_publish_fn"]}
{"id": "C21", "title": "Rate limiter never exceeds its rate", "statement": "Between any two moments, the tokens granted never exceed the bucket's content plus rate times elapsed time, the content never exceeds the maximum, and long-run regeneration has no rounding drift.", "quantifier": "every sequence of requests at every sequence of times", "why_tests_cant": "rounding behaviour depends on arbitrary time sequences", "anchors": ["source/v5/rate_limiters.c:s_regenerate_tokens", "source/v5/rate_limiters.c:aws_rate_limiter_token_bucket_take_tokens"]}
{"id": "C22", "title": "Rate limiter waiting time is exact", "statement": "After waiting the time the limiter asks for, the tokens are available; after waiting any shorter time they are not.", "quantifier": "every configuration and state reachable in the limiter, every token count up to the maximum", "why_tests_cant": "integer rounding corner cases", "anchors": ["source/v5/rate_limiters.c:aws_rate_limiter_token_bucket_compute_wait_for_tokens"]}
{"id": "C23", "title": "In-flight MQTT5 packet identifiers are unique", "statement": "At any time, no two operations sent on the current connection and awaiting an acknowledgement carry the same packet identifier, and none carries 0. (Refuted in a wrap-around corner: an identifier held by a queued, partially sent operation is not reserved.)", "quantifier": "every history of submissions, acknowledgements, timeouts and reconnects", "why_tests_cant": "needs wrap-around of the 16-bit counter and all interleavings", "anchors": ["source/v5/mqtt5_client.c:aws_mqtt5_operation_bind_packet_id", "source/v5/mqtt5_client.c:aws_mqtt5_client_service_operational_state"]}
{"id": "C24", "title": "Receive maximum is respected", "statement": "On each connection, QoS1+ publishes sent minus PUBACKs received never exceeds the server's receive maximum, whatever the user and the server do, as long as the process has not been aborted (C45).", "quantifier": "every history of submissions and received packets", "why_tests_cant": "needs all interleavings", "anchors": ["source/v5/mqtt5_client.c:aws_mqtt5_client_flow_control_state_on_outbound_operation", "source/v5/mqtt5_client.c:aws_mqtt5_client_flow_control_state_get_next_operation_service_time"]}
{"id": "C25", "title": "A completion happens at most once and means what it says", "statement": "Each submitted publish, subscribe or unsubscribe invokes its completion callback at most once; a completion is always that of an operation submitted before; success of an operation that is answered means that it was sent on the current connection and that the packet just received, handed to the callback, carries its packet identifier; success of one that is not answered means it was sent; a failed completion carries no packet.", "quantifier": "every history of submissions, acknowledgements, timeouts, disconnects, stops", "why_tests_cant": "needs all interleavings", "anchors": ["source/v5/mqtt5_client.c:s_complete_operation", "source/v5/mqtt5_client.c:s_aws_mqtt5_client_set_current_operation", "source/v5/mqtt5_client.c:s_aws_mqtt5_client_operational_state_reset"]}
{"id": "C26", "title": "MQTT5 client statistics are exact", "statement": "At any time the reported incomplete count and size equal, modulo 2^64, the number and total encoded size of the publishes, subscribes and unsubscribes submitted and not completed yet; the reported unacknowledged count and size those of the ones among them that were sent since the latest connection was announced and that the server is to answer. Sizes are those of the packets before a packet identifier is assigned, and a request too large to be encoded is not counted.", "quantifier": "every history", "why_tests_cant": "needs all interleavings of completion paths", "anchors": ["source/v5/mqtt5_client.c:aws_mqtt5_client_statistics_change_operation_statistic_state"]}
{"id": "C27", "title": "Lifecycle events follow the documented grammar", "statement": "As long as stop() is not given a DISCONNECT packet, the sequence of lifecycle events is a prefix of (ATTEMPTING_CONNECT (CONNECTION_FAILURE | CONNECTION_SUCCESS DISCONNECTION))* with STOPPED only between groups; with such stops the only other possibility is a CONNECTION_SUCCESS that follows no ATTEMPTING_CONNECT.", "quantifier": "every history of starts, stops, network events and received packets", "why_tests_cant": "needs all interleavings and adversarial servers", "anchors": ["source/v5/mqtt5_client.c:s_aws_mqtt5_client_emit_final_lifecycle_event", "source/v5/mqtt5_client.c:s_change_current_state"]}
{"id": "C28", "title": "Offline queue policy is enforced", "statement": "While not connected, exactly the requests that the configured policy retains stay queued, besides QoS1 and QoS2 publishes that were sent and not acknowledged; others are refused or completed, and only requests the policy does not retain get the offline-policy error; retained operations keep their submission order.", "quantifier": "every history, every policy", "why_tests_cant": "needs all histories", "anchors": ["source/v5/mqtt5_client.c:s_aws_mqtt5_operation_satisfies_offline_queue_retention_policy", "source/v5/mqtt5_client.c:aws_mqtt5_client_on_disconnection_update_operational_state", "source/v5/mqtt5_client.c:aws_mqtt5_client_submit_operation_internal"]}
{"id": "C29", "title": "Every received QoS1 message is acknowledged once, in order", "statement": "Each QoS1 PUBLISH received while connected queues exactly one PUBACK with its packet identifier unless the user took manual control; PUBACKs leave in the order the PUBLISHes arrived and ahead of user operations. (For servers whose maximum packet size is at least 4, the size of a PUBACK.)", "quantifier": "every history of received packets, pings and submissions", "why_tests_cant": "needs all interleavings", "anchors": ["source/v5/mqtt5_client.c:s_aws_mqtt5_client_queue_puback", "source/v5/mqtt5_client.c:s_insert_node_before_predicate_failure"]}
{"id": "C30", "title": "QoS1 publishes survive reconnection in order", "statement": "After a disconnection, unacknowledged QoS1 publishes are re-sent before anything else, in their original order, with DUP set and the same packet identifier when the session is resumed; subscribes and unsubscribes awaiting acknowledgement that the policy retains are re-sent after them, with the same content and a newly assigned identifier; everything not sent before follows in submission order.", "quantifier": "every history of submissions, partial writes, disconnects and reconnects", "why_tests_cant": "needs all interleavings", "anchors": ["source/v5/mqtt5_client.c:aws_mqtt5_client_on_disconnection_update_operational_state", "source/v5/mqtt5_client.c:aws_mqtt5_client_on_connection_update_operational_state"]}
{"id": "C31", "title": "Acknowledgement timeouts fire exactly for overdue operations", "statement": "When the client checks timeouts at time t, every operation awaiting acknowledgement whose deadline is at or before t is completed with the timeout error, and no other operation is.", "quantifier": "every set of in-flight operations and times", "why_tests_cant": "needs all histories", "anchors": ["source/v5/mqtt5_client.c:s_check_timeouts"]}
{"id": "C32", "title": "Reconnect back-off is bounded", "statement": "The delay before a reconnect attempt never exceeds the configured maximum, without jitter it is min(max, min_delay * 2^n), with full jitter it lies between 0 and that value, and with decorrelated jitter it lies in that range or between min_delay and three times min_delay; overflow never shortens it. Here n is the number of waits since the delay was last reset: at least the number of automatic attempts since the last successful connection and less than the number of losses reported so far.", "quantifier": "every configuration, every number of consecutive failures, every random value", "why_tests_cant": "64-bit overflow corner cases", "anchors": ["source/v5/mqtt5_client.c:s_update_reconnect_delay_for_pending_reconnect", "source/v5/mqtt5_utils.c:aws_mqtt5_client_random_in_range"]}
{"id": "C33", "title": "Keep-alive", "statement": "While connected with keep-alive k > 0 a PINGREQ is queued no later than the first service at or after k seconds from the previous one; a missing PINGRESP disconnects no later than the first service after the ping timeout, which never exceeds k/2.", "quantifier": "every configuration and time sequence", "why_tests_cant": "needs all time sequences", "anchors": ["source/v5/mqtt5_client.c:s_reset_ping", "source/v5/mqtt5_client.c:s_on_pingreq_send", "source/v5/mqtt5_client.c:s_service_state_connected"]}
{"id": "C34", "title": "Manual publish acknowledgement handles are one-shot", "statement": "Handles given out are non-zero and distinct for distinct pending publishes; using one queues exactly one PUBACK for the right packet; after a disconnect it reports CANCELLED once and INVALID afterwards.", "quantifier": "every history of acquisitions, uses and disconnects", "why_tests_cant": "needs all histories", "anchors": ["source/v5/mqtt5_client.c:aws_mqtt5_client_acquire_publish_acknowledgement", "source/v5/mqtt5_client.c:s_mqtt5_manual_pub_ack_task_fn", "source/v5/mqtt5_client.c:s_aws_mqtt5_reset_manual_pub_ack_tables"]}
{"id": "C35", "title": "Stop makes progress", "statement": "After stop(), the client has something scheduled (a service, a pending write or a pending channel shutdown) until it is stopped. (Refuted: a QoS1 message arriving before the DISCONNECT is written blocks it forever.)", "quantifier": "every history", "why_tests_cant": "liveness over all interleavings", "anchors": ["source/v5/mqtt5_client.c:s_aws_mqtt5_client_has_pending_operational_work", "source/v5/mqtt5_client.c:s_compute_next_service_time_client_clean_disconnect"]}
{"id": "C36", "title": "Negotiated settings reflect CONNECT, CONNACK and defaults", "statement": "When a connection is announced, its CONNACK was received on this connection and accepted it, and each negotiated setting equals the CONNACK value if present, else the CONNECT value where applicable, else the MQTT5 default; on that connection the maximum QoS and retain availability announced by the server are respected by every publish sent. (Sizes are C37, the receive maximum C24.)", "quantifier": "every CONNECT and CONNACK", "why_tests_cant": "all subsets of optional properties", "anchors": ["source/v5/mqtt5_utils.c:aws_mqtt5_negotiated_settings_reset", "source/v5/mqtt5_utils.c:aws_mqtt5_negotiated_settings_apply_connack"]}
{"id": "C37", "title": "Server maximum packet size is respected", "statement": "No packet sent after CONNACK is larger than the server's maximum packet size. (Refuted: the size is checked before the packet identifier and the topic alias are added.)", "quantifier": "every operation and every announced maximum", "why_tests_cant": "boundary arithmetic over all packets", "anchors": ["source/v5/mqtt5_options_storage.c:aws_mqtt5_operation_validate_vs_connection_settings", "source/v5/mqtt5_encoder.c:aws_mqtt5_packet_view_get_encoded_size"]}
{"id": "C38", "title": "Subscription clean-up handlers run exactly once", "statement": "Over the life of a subscription set, the clean-up handler of every subscription added is invoked exactly once with its user data: when it is replaced, removed or when the set is destroyed (handlers with non-NULL user data; with NULL user data the code is inconsistent: refuted part).", "quantifier": "every history of additions, removals and the final destruction", "why_tests_cant": "needs all histories and tree shapes", "anchors": ["source/mqtt_subscription_set.c:aws_mqtt_subscription_set_add_subscription", "source/mqtt_subscription_set.c:aws_mqtt_subscription_set_remove_subscription", "source/mqtt_subscription_set.c:s_aws_mqtt_subscription_set_node_destroy_node"]}
{"id": "C39", "title": "3.1.1 subscription tree: enumeration and clean-up", "statement": "On histories on which the tree is memory safe (C17), enumerating the tree (what re-subscribing uses) reports exactly the subscriptions in force with their QoS and the count agrees; over the tree's life the clean-up handler of every committed subscription is invoked exactly once with its non-NULL user data; if every request was committed, destruction leaves no string allocated. (Rolling back a subscription to an existing level leaks its string: shown by a counterexample.)", "quantifier": "every safe history of requests, every enumeration order of the hash tables", "why_tests_cant": "needs all histories and tree shapes and ownership of every string", "anchors": ["source/topic_tree.c:aws_mqtt_topic_tree_iterate", "source/topic_tree.c:aws_mqtt_topic_tree_get_sub_count", "source/topic_tree.c:aws_mqtt_topic_tree_clean_up", "source/topic_tree.c:s_topic_tree_action_roll_back"]}
{"id": "C40", "title": "MQTT5 option validation accepts exactly the legal packets", "statement": "Option validation of a PUBLISH, CONNECT (with its will), SUBSCRIBE, UNSUBSCRIBE or DISCONNECT succeeds exactly when the packet obeys the MQTT5 rules for packets a client sends (valid UTF-8 strings that fit their length field, topic and filter grammar, no-local not on shared subscriptions, legal flags, reason codes and aliases) and the documented limits of this client (at most 1024 entries per list, QoS at most 1 in subscriptions, no enhanced authentication, no client-set subscription identifiers on PUBLISH or server reference on DISCONNECT).", "quantifier": "every packet value of each type", "why_tests_cant": "string contents, list sizes and subsets of optional fields cannot be enumerated", "anchors": ["source/v5/mqtt5_options_storage.c:aws_mqtt5_packet_publish_view_validate", "source/v5/mqtt5_options_storage.c:aws_mqtt5_packet_connect_view_validate", "source/v5/mqtt5_options_storage.c:aws_mqtt5_packet_subscribe_view_validate", "source/v5/mqtt5_options_storage.c:aws_mqtt5_packet_unsubscribe_view_validate", "source/v5/mqtt5_options_storage.c:aws_mqtt5_packet_disconnect_view_validate"]}
{"id": "C43", "title": "Failed assertions of the MQTT5 client are confined to two situations", "statement": "Whatever the user, the network and the server do, the MQTT5 client aborts the process on a failed assertion only if the server sends DISCONNECT between the announcement of a connection attempt and that of its outcome, or if a publish with QoS 1 or 2 is processed after as many as the receive maximum were sent on the connection.", "quantifier": "every history of API calls, network events, received bytes and clock readings", "why_tests_cant": "needs all interleavings and adversarial servers", "anchors": ["source/v5/mqtt5_client.c:s_aws_mqtt5_client_emit_final_lifecycle_event", "source/v5/mqtt5_client.c:aws_mqtt5_client_flow_control_state_on_outbound_operation", "source/v5/mqtt5_client.c:s_change_current_state"]}
{"id": "C44", "title": "Every operation has been completed when the client stops or terminates", "statement": "By the time the client reports STOPPED or termination, every operation submitted before has had its completion callback invoked. (Refuted: an operation whose encoding or identifier binding fails, and the DISCONNECT given to a stop() that finds no connection, are dropped without completion.)", "quantifier": "every history of API calls, network events, received bytes and clock readings", "why_tests_cant": "needs all interleavings of completion paths", "anchors": ["source/v5/mqtt5_client.c:s_aws_mqtt5_client_set_current_operation", "source/v5/mqtt5_client.c:s_aws_mqtt5_client_operational_state_reset", "source/v5/mqtt5_client.c:s_complete_operation"]}
{"id": "C45", "title": "No server and no sequence of API calls aborts the process", "statement": "No assertion of the MQTT5 client fails. (Refuted: a stray packet followed by DISCONNECT before CONNACK, or a queued publish behind an operation that fails validation when the receive maximum is used up, aborts the process.)", "quantifier": "every history of API calls, network events, received bytes and clock readings", "why_tests_cant": "needs all interleavings and adversarial servers", "anchors": ["source/v5/mqtt5_client.c:s_aws_mqtt5_client_emit_final_lifecycle_event", "source/v5/mqtt5_client.c:aws_mqtt5_client_flow_control_state_on_outbound_operation"]}
{"id": "C46", "title": "Lifecycle events follow the documented grammar whatever stop() is given", "statement": "The sequence of lifecycle events is always a prefix of (ATTEMPTING_CONNECT (CONNECTION_FAILURE | CONNECTION_SUCCESS DISCONNECTION))* with STOPPED only between groups. (Refuted: stop() with a DISCONNECT packet during an attempt, followed by start().)", "quantifier": "every history of API calls, network events, received bytes and clock readings", "why_tests_cant": "needs all interleavings", "anchors": ["source/v5/mqtt5_client.c:s_aws_mqtt5_client_emit_final_lifecycle_event", "source/v5/mqtt5_client.c:s_change_current_state"]}
{"id": "C47", "title": "The client never sleeps through something it has to do", "statement": "After every history the client's service task is scheduled, no later than: now, if it is to be started or stopped or something can be sent; the CONNACK timeout while waiting for a CONNACK; the next PINGREQ, the ping timeout and the earliest acknowledgement timeout while connected; the end of the reconnect delay while waiting to reconnect.", "quantifier": "every history of API calls, network events, received bytes and clock readings (clock positive, not running backwards, below 2^64; no timeout that wraps around to 0)", "why_tests_cant": "a missing rescheduling shows as a hang only in the one history whose last event should have rescheduled; tests run the service task on a fixed period or poke it", "anchors": ["source/v5/mqtt5_client.c:s_reevaluate_service_task", "source/v5/mqtt5_client.c:s_compute_next_service_time_client_connected", "source/v5/mqtt5_client.c:aws_mqtt5_client_operational_state_reset"]}
{"id": "C48", "title": "The client asks for the session the configuration calls for and believes in no other", "statement": "Every CONNECT packet sent has the configured contents, except: clean start is requested exactly if the session behaviour is 'clean', or it is 'rejoin post success' and no CONNECTION_SUCCESS was reported since the client was last stopped; an empty client id is replaced by the server-assigned one after a connection with it was reported. No CONNECTION_SUCCESS with a resumed session is reported for an attempt that asked for a clean start.", "quantifier": "every configuration and every history of API calls, network events, received bytes and clock readings", "why_tests_cant": "the clean-start flag depends on the whole history of lifecycle events since the last stop; tests cover a few scripts per behaviour", "anchors": ["source/v5/mqtt5_client.c:s_should_resume_session", "source/v5/mqtt5_client.c:s_change_current_state_to_mqtt_connect", "source/v5/mqtt5_client.c:s_aws_mqtt5_client_mqtt_connect_on_packet_received"]}
{"id": "C54", "title": "The request-response client stays within its subscription budget", "statement": "At every moment before the user releases the request-response client, the topic filters it holds a subscription to (the last completion heard for the filter was a granted SUBSCRIBE, with no granted UNSUBSCRIBE and no lost session since) or has asked for and not heard of are, counting the filters used only by requests, at most max_request_response_subscriptions; counting those used only by streaming operations, at most max_streaming_subscriptions; and altogether at most the sum of the two.", "quantifier": "every configuration and every history of API calls, task orders, completions (late, failed, refused), connection losses, session losses and hash table orders", "why_tests_cant": "the budget must hold at every moment of every interleaving of intake, purging, resubscription and session loss; tests replay a few orders", "anchors": ["source/request-response/subscription_manager.c:aws_rr_subscription_manager_acquire_subscription", "source/request-response/subscription_manager.c:aws_rr_subscription_manager_purge_unused", "source/request-response/subscription_manager.c:aws_rr_subscription_manager_on_protocol_adapter_connection_event"]}
{"id": "C55", "title": "The request-response client never contradicts itself", "statement": "No assertion of the request-response client or its subscription manager fails, whatever the order of API calls, tasks, completions and connection events. Before the user releases the client, at most one request to subscribe to or unsubscribe from a given topic filter is under way.", "quantifier": "every configuration and every history of API calls, task orders, completions, connection events and hash table orders", "why_tests_cant": "the fatal assertions tie together records, events already queued and completions still to come; only an invariant covers all interleavings", "anchors": ["source/request-response/subscription_manager.c:aws_rr_subscription_manager_on_protocol_adapter_subscription_event", "source/request-response/subscription_manager.c:s_rr_activate_idle_subscription", "source/request-response/request_response_client.c:s_handle_subscription_status_event_task"]}
{"id": "C50", "title": "Every request is answered exactly once", "statement": "The completion callback of a request accepted by aws_mqtt_request_response_client_submit_request is called at most once, and once the client has been shut down it has been called.", "quantifier": "every configuration and every history of API calls, task orders, responses, completions (late, failed, refused), connection and session losses, timeouts", "why_tests_cant": "responses, timeouts, failed subscriptions, failed publishes and shutdown all complete requests and may race in any order; tests race one pair at a time", "anchors": ["source/request-response/request_response_client.c:s_complete_request_operation_with_failure", "source/request-response/request_response_client.c:s_complete_operation_with_correlation_token", "source/request-response/request_response_client.c:s_check_for_operation_timeouts", "source/request-response/request_response_client.c:s_mqtt_request_response_client_external_shutdown_task_fn"]}
{"id": "C53", "title": "A request is published at most once and only while it is open", "statement": "The message of a request is handed to the protocol client at most once, only after every response topic filter of the request has been subscribed to (it was when the client took the request up, or a SUBSCRIBE has been granted since), and never after the request's completion callback has been called.", "quantifier": "every configuration and every history of API calls, task orders, completions and events from the protocol client", "why_tests_cant": "a second subscription event, a late one, or a timeout in the same service run could publish again or too late; this needs all orders of these events", "anchors": ["source/request-response/request_response_client.c:s_make_mqtt_request", "source/request-response/request_response_client.c:s_handle_subscription_status_event_task", "source/request-response/request_response_client.c:s_handle_operation_subscribe_result"]}
{"id": "C51", "title": "Requests time out neither early nor late", "statement": "A request is completed with a timeout only after the clock has shown a time at least the configured request timeout later than when the request was submitted. When the clock shows that time and the request has not been completed, the client's service task is due, and when it has run the request has been completed.", "quantifier": "every configuration and every history of API calls, task orders and clock readings (for the second part, not running backwards); sums below 2^64 nanoseconds", "why_tests_cant": "the deadline passes through a priority queue, a service task that is rescheduled and skipped in many places, and other requests' timeouts; a test checks one request and one clock", "anchors": ["source/request-response/request_response_client.c:s_check_for_operation_timeouts", "source/request-response/request_response_client.c:aws_mqtt_request_response_client_submit_request", "source/request-response/request_response_client.c:s_mqtt_request_response_client_get_next_service_time"]}
{"id": "C52", "title": "A request is completed only by its own response", "statement": "A request is completed successfully only with the topic and payload of a message that arrived on one of the response topics the request named, and whose JSON document holds the request's correlation token at the path the request gave for that topic.", "quantifier": "every configuration, every set of concurrent requests with any topics, paths and tokens, every message and every order of events", "why_tests_cant": "requests share topics, paths and tables whose entries outlive or precede others; tests use a few disjoint requests", "anchors": ["source/request-response/request_response_client.c:s_apply_publish_to_response_path_entry", "source/request-response/request_response_client.c:s_complete_operation_with_correlation_token", "source/request-response/request_response_subscription_set.c:aws_mqtt_request_response_client_subscriptions_handle_incoming_publish", "source/request-response/request_response_subscription_set.c:aws_mqtt_request_response_client_subscriptions_add_request_subscription"]}
{"id": "C56", "title": "Completions and stream status events tell the truth", "statement": "Each callback of the request-response client is called only if what it says has happened: a timeout only past the deadline, a publish failure only if the publish was refused or failed, a subscribe failure only if a subscription of that operation was refused, failed, lost or in conflict with the other kind of operation, shutdown only after the user released the client, established and lost only for a stream whose filter was acknowledged (and whose session was then lost).", "quantifier": "every configuration and every history of API calls, task orders, completions and events from the protocol client", "why_tests_cant": "status events are queued and delivered later, for subscriptions shared by many operations; whether each reaches only those it concerns depends on all interleavings", "anchors": ["source/request-response/request_response_client.c:s_handle_subscription_status_event_task", "source/request-response/request_response_client.c:s_request_response_fail_operation", "source/request-response/subscription_manager.c:s_emit_subscription_event"]}
{"id": "C57", "title": "A stream gets each matching message once", "statement": "A message that arrives is delivered exactly once to each accepted stream whose topic filter it matches, in MQTT's sense, and to no other; a stream that was told it has come to a halt gets no more messages.", "quantifier": "every configuration, every set of streams with any (overlapping, equal, wildcard) filters, every message and every order of events", "why_tests_cant": "filters may overlap and be shared, streams come and go between messages; tests use a few filters", "anchors": ["source/request-response/request_response_subscription_set.c:aws_mqtt_request_response_client_subscriptions_handle_incoming_publish", "source/request-response/request_response_subscription_set.c:s_is_topic_matched_to_subscription", "source/request-response/request_response_client.c:s_apply_publish_to_streaming_operation_list"]}
{"id": "C58", "title": "A request is published once its subscriptions are in place", "statement": "As soon as the client is subscribed to every response topic filter of a request it has taken up, it hands the request's message to the protocol client.", "quantifier": "every configuration and every history of API calls, task orders, completions and events from the protocol client", "why_tests_cant": "the count of subscriptions still awaited depends on which other operations use the filters and on when their subscriptions complete; a test tries a few combinations", "anchors": ["source/request-response/request_response_client.c:s_handle_operation_subscribe_result", "source/request-response/request_response_client.c:s_handle_subscription_status_event_task", "source/request-response/subscription_manager.c:aws_rr_subscription_manager_acquire_subscription"]}
{"id": "C60", "title": "Packet ids of the 3.1.1 client are valid and unique", "statement": "Every operation that the 3.1.1 client accepts gets a packet id between 1 and 65535 which no operation that is not over has. An operation is refused because the queue is full only if every one of the 65535 ids belongs to an operation that is not over.", "quantifier": "every history of API calls, tasks, packets and connection events, including offline operations, reconnections and wrap-around of the counter", "why_tests_cant": "collisions need an id that survived while the counter wrapped around; the table would have to be filled in every pattern", "anchors": ["source/client_channel_handler.c:mqtt_create_request", "source/client_channel_handler.c:mqtt_request_complete"]}
{"id": "C61", "title": "Each operation of the 3.1.1 client is completed exactly once", "statement": "The completion callback of each publish, subscribe, resubscribe and unsubscribe is called at most once, with the packet id that the call returned, and exactly once by the time the connection object has been destroyed. Nothing is reported after its destruction has been.", "quantifier": "every history of API calls, acknowledgements (expected or not), time-outs, failures to encode or write, lost connections, clean sessions and the final release", "why_tests_cant": "the operation is in the hands of a scheduled task, a list of unanswered or of waiting requests, a timeout task or the destructor, and each hands it on to another one", "anchors": ["source/client_channel_handler.c:s_request_outgoing_task", "source/client_channel_handler.c:mqtt_request_complete", "source/client.c:s_mqtt_client_shutdown", "source/client.c:s_mqtt_client_connection_destroy_final"]}
{"id": "C62", "title": "The 3.1.1 client reports the truth about an operation", "statement": "An operation is reported to have succeeded only if the server has acknowledged it, with the type of packet that belongs to it (a QoS 0 publish: if it has been sent); to have been cancelled for a clean session only if the session is clean; to have failed for lack of a connection only if there is none and the operation is of a kind that is not sent again.", "quantifier": "every history, including servers that answer with any packet, any id, at any time", "why_tests_cant": "a server under test answers properly", "anchors": ["source/client_channel_handler.c:s_packet_handler_puback", "source/client_channel_handler.c:s_packet_handler_suback", "source/client_channel_handler.c:mqtt_request_complete"]}
{"id": "C63", "title": "The 3.1.1 client sends what it was asked to, when it may", "statement": "A packet for an operation is sent only while the server has accepted the connection and the operation is not over; it carries the operation's topic, payload, filters, QoS, retain flag and packet id, with the DUP flag set exactly if it has been sent before. QoS 0 publishes and pings are sent at most once.", "quantifier": "every history of API calls, tasks, packets and connection events", "why_tests_cant": "whether an operation has been sent before, and whether it is over, depends on all that happened to it over any number of connections", "anchors": ["source/client.c:s_publish_send", "source/client.c:s_subscribe_send", "source/client.c:s_unsubscribe_send", "source/client.c:s_pingreq_send", "source/client_channel_handler.c:s_request_outgoing_task"]}
{"id": "C64", "title": "The 3.1.1 client sends operations in order", "statement": "Operations are sent in the order in which they were made, on each connection: one made later is sent only after all earlier ones that are not over.", "quantifier": "every history, with any operations pending, scheduled or unanswered whenever a connection is lost or made", "why_tests_cant": "the order depends on where each operation was when the connection was lost", "anchors": ["source/client.c:s_mqtt_client_shutdown", "source/client_channel_handler.c:s_packet_handler_connack", "source/client_channel_handler.c:s_request_outgoing_task"]}
{"id": "C65", "title": "A clean session forgets what was before it", "statement": "When the user asked for a clean session, an operation that is not over has been made after the last connection was lost (and after the call to connect): all others have been completed. Nothing is sent for an operation made in an earlier clean session.", "quantifier": "every history with clean and other sessions in any order, any operations outstanding when they end", "why_tests_cant": "operations may be in any list or scheduled when the session ends", "anchors": ["source/client.c:s_mqtt_client_shutdown", "source/client.c:s_aws_mqtt_client_connection_311_connect"]}
{"id": "C66", "title": "Operations survive the loss of a connection", "statement": "While the client is connected and no task is left to run, every operation that is not over has been sent on the present connection: none is forgotten when a connection is lost, or made while there is none. Tasks that are left can be run, each time one less is left.", "quantifier": "every history of API calls, tasks, packets and connection events", "why_tests_cant": "an operation may be lost at any point of the hand-over between scheduled tasks and the lists of pending and unanswered requests, over any number of connections", "anchors": ["source/client.c:s_mqtt_client_shutdown", "source/client_channel_handler.c:s_packet_handler_connack", "source/client_channel_handler.c:s_request_outgoing_task", "source/client_channel_handler.c:mqtt_create_request"]}
{"id": "C67", "title": "Operations of the 3.1.1 client time out neither early nor late", "statement": "An operation is reported to have timed out only if the timeout asked for has passed since its packet was last sent. When an operation sent on the present connection has waited for that long, its timeout task is due and completes it.", "quantifier": "every history, every timeout and clock reading", "why_tests_cant": "the timer is started, stopped and restarted as connections come and go", "anchors": ["source/client.c:s_schedule_timeout_task", "source/client.c:s_request_timeout", "source/client.c:s_publish_send"]}
{"id": "C68", "title": "The 3.1.1 client's connection callbacks tell a consistent story", "statement": "on_interrupted is called only while connected and with an error, on_resumed only after it when the server has accepted a new connection, on_connection_complete reports success only when the server has just accepted a connection that is not a reconnection, on_connection_success and on_connection_failure follow the report they belong to, on_disconnect and on_closed come in this order once the user asked to disconnect, and the connection can be opened again or destroyed only after that. Each call to connect is answered by one on_connection_complete.", "quantifier": "every history of API calls (also a disconnect from within on_interrupted), packets and connection events", "why_tests_cant": "what is reported depends on the state in which each failure strikes", "anchors": ["source/client.c:s_mqtt_client_shutdown", "source/client.c:s_mqtt_client_init", "source/client_channel_handler.c:s_packet_handler_connack", "source/client.c:s_attempt_reconnect"]}
{"id": "C69", "title": "The 3.1.1 client delivers a message once for each matching subscription", "statement": "When a PUBLISH comes in, the publish handler of each filter there is a subscription for and which matches the topic is called once, those of no others, and the handler for any publish after that. Nothing is delivered at any other time. There is a subscription for a filter from when its SUBSCRIBE is first sent until an UNSUBSCRIBE is first sent; one for $share/group/filter counts as one for filter.", "quantifier": "every history of API calls, tasks, packets and connection events, every topic and set of subscriptions", "why_tests_cant": "which subscriptions there are depends on the whole history, and filters and topics are unbounded", "anchors": ["source/client_channel_handler.c:s_packet_handler_publish", "source/client.c:s_on_subscribe_complete", "source/client.c:s_subscribe_send", "source/client.c:s_unsubscribe_send", "source/topic_tree.c:aws_mqtt_topic_tree_publish"]}
{"id": "C70", "title": "The 3.1.1 client acknowledges what it receives, and takes a QoS 2 message once", "statement": "A PUBLISH with QoS 1 is answered by PUBACK with its packet id, one with QoS 2 by PUBREC, after it has been delivered; PUBREC is answered by PUBREL and PUBREL by PUBCOMP; if the answer cannot be sent the connection is closed. No acknowledgement is sent otherwise. A QoS 2 message sent again before its PUBREL is not delivered again, and one the client has got a PUBREC for is not published again.", "quantifier": "every history of API calls, tasks, packets and connection events", "why_tests_cant": "whether a message has been received before depends on the packets of earlier connections", "anchors": ["source/client_channel_handler.c:s_packet_handler_publish", "source/client_channel_handler.c:s_packet_handler_pubrec", "source/client_channel_handler.c:s_packet_handler_pubrel"]}
{"id": "C71", "title": "Resubscribing in the 3.1.1 client asks for the subscriptions there are", "statement": "When a resubscribe operation is sent first, its SUBSCRIBE has each filter there is a subscription for, as it was given, exactly once and no other.", "quantifier": "every history of API calls, tasks, packets and connection events", "why_tests_cant": "the subscriptions depend on all operations sent before, over any number of connections", "anchors": ["source/client.c:s_resubscribe_send", "source/client.c:s_reconnect_resub_iterator", "source/client.c:s_subscribe_send", "source/client.c:s_unsubscribe_send"]}
{"id": "C72", "title": "The user name sent with SDK metrics keeps the user's", "statement": "When SDK metrics are configured, the user name in CONNECT is the user's own with query parameters after it: a server that takes the query to be what is after the last question mark finds the same name, the user's parameters with their values and in order, SDK and Platform (the user's, or else those of the metrics) and Metadata with the user's entries and those of the metrics with other keys. It is at most 65535 bytes long, and its size is the one reported. Without metrics it is unchanged.", "quantifier": "every user name, platform name and metrics", "why_tests_cant": "user names, parameters and metadata are arbitrary text in which the separators may occur anywhere", "anchors": ["source/mqtt_iot_metrics.c:aws_mqtt_append_sdk_metrics_to_username", "source/mqtt_iot_metrics.c:s_build_delimited_params", "source/mqtt_iot_metrics.c:s_parse_delimited_entries"]}
{"id": "C73", "title": "Making the user name with SDK metrics is safe", "statement": "For every user name and metrics, making the user name or asking for its size succeeds or fails with an error, without reading through a null pointer.", "quantifier": "every user name, platform name and metrics", "why_tests_cant": "the fault needs a name within a few bytes of the limit, which depends on the metrics", "anchors": ["source/mqtt_iot_metrics.c:aws_mqtt_append_sdk_metrics_to_username", "source/v5/mqtt5_options_storage.c:s_aws_mqtt5_packet_connect_compute_storage_size"]}
{"id": "C74", "title": "Messages are offered to listeners newest first until one handles them", "statement": "Each message an MQTT 5 client receives is offered to the listeners that are in place and have a handler for messages, the one initialized last first, each at most once, until one says it has handled it; the client's own handler gets it if and only if none has. The listeners of a 3.1.1 connection all get it, in the same order.", "quantifier": "every history of making, acquiring, releasing listeners and of tasks and events, every answer of the handlers", "why_tests_cant": "listeners come and go in any order, and what a listener gets depends on the answers of all those before it", "anchors": ["source/v5/mqtt5_callbacks.c:aws_mqtt5_callback_set_manager_on_publish_received", "source/v5/mqtt5_callbacks.c:aws_mqtt5_callback_set_manager_push_front", "source/mqtt311_listener.c:aws_mqtt311_callback_set_manager_on_publish_received"]}
{"id": "C75", "title": "All listeners get the other events", "statement": "Each lifecycle event of an MQTT 5 client goes to every listener that is in place and has a handler, the one initialized last first, exactly once, and then to the client's own handler. The same goes for the connection events of a 3.1.1 connection and its listeners.", "quantifier": "every history of making, acquiring, releasing listeners and of tasks and events", "why_tests_cant": "listeners come and go in any order", "anchors": ["source/v5/mqtt5_callbacks.c:aws_mqtt5_callback_set_manager_on_lifecycle_event", "source/mqtt311_listener.c:aws_mqtt311_callback_set_manager_on_connection_success", "source/mqtt311_listener.c:aws_mqtt311_callback_set_manager_on_connection_interrupted", "source/mqtt311_listener.c:aws_mqtt311_callback_set_manager_on_disconnect"]}
{"id": "C76", "title": "A listener lives until its last reference is released", "statement": "A listener's handlers are called only after it is initialized and never after its termination callback. That is called at most once, not while the user holds a reference, and it is called once all are released and the event loop has run its tasks. The listener holds its client until then. If the user acquires and releases only what it holds, nothing is used after it is freed.", "quantifier": "every history of making, acquiring, releasing listeners and of tasks run in any order", "why_tests_cant": "references may be released before the listener is initialized, and tasks of many listeners are interleaved", "anchors": ["source/v5/mqtt5_listener.c:aws_mqtt5_listener_new", "source/v5/mqtt5_listener.c:aws_mqtt5_listener_release", "source/v5/mqtt5_listener.c:s_mqtt5_listener_initialize_task_fn", "source/v5/mqtt5_listener.c:s_mqtt5_listener_terminate_task_fn", "source/mqtt311_listener.c:aws_mqtt311_listener_new"]}
{"id": "C77", "title": "Each publish through the protocol adapter is reported once", "statement": "The completion callback of each publish the protocol adapter accepted is called exactly once: when the client completes it, or, if the adapter is terminated first, then with the error that the request-response client was shut down, the oldest publish first. The callback of a publish that was refused is never called.", "quantifier": "every history of calls, completions and events of the client, termination at any point, MQTT 5 and 3.1.1", "why_tests_cant": "the client may complete an operation long after the adapter is gone, and any number of them may be open at that time", "anchors": ["source/request-response/protocol_adapter.c:s_release_incomplete_operations", "source/request-response/protocol_adapter.c:s_protocol_adapter_5_publish_completion", "source/request-response/protocol_adapter.c:s_protocol_adapter_311_publish_completion"]}
{"id": "C78", "title": "Subscribes and unsubscribes through the protocol adapter are reported truthfully", "statement": "A subscribe or unsubscribe that is completed while the adapter exists gives exactly one event, with the topic filter that was asked for. It says success exactly if the client reports no error and the server granted it with one reason code below 128 (for a 3.1.1 unsubscribe: no error). It is marked retryable exactly in the cases listed: never if the packet was found invalid, for MQTT 5 only for the reason codes that may pass. A completion after the termination gives no event.", "quantifier": "every history, every error code and every list of reason codes, MQTT 5 and 3.1.1", "why_tests_cant": "the server may send any number of reason codes of any value", "anchors": ["source/request-response/protocol_adapter.c:s_protocol_adapter_5_subscribe_completion", "source/request-response/protocol_adapter.c:s_protocol_adapter_5_unsubscribe_completion", "source/request-response/protocol_adapter.c:s_protocol_adapter_311_subscribe_completion", "source/request-response/protocol_adapter.c:s_is_retryable_subscribe", "source/request-response/protocol_adapter.c:s_is_retryable_unsubscribe5"]}
{"id": "C79", "title": "Nothing is reported after the protocol adapter has terminated", "statement": "Until it is terminated the adapter passes on every message and every change of the connection once. After its termination callback it calls nothing, and an operation the client completes then touches nothing that was freed.", "quantifier": "every history of calls, completions and events of the client, termination at any point", "why_tests_cant": "completions may come at any time after the termination", "anchors": ["source/request-response/protocol_adapter.c:s_protocol_adapter_mqtt5_listener_termination_callback", "source/request-response/protocol_adapter.c:s_protocol_adapter_mqtt311_listener_termination_callback", "source/request-response/protocol_adapter.c:s_aws_mqtt_protocol_adapter_operation_user_data_destroy"]}
{"id": "C80", "title": "A connect over an MQTT 5 client is answered once and truthfully", "statement": "For a 3.1.1 connection made from an MQTT 5 client: the completion callback of a connect is called at most once and only after the connect was carried out. It is called as soon as the client has connected, the attempt has failed, or a disconnect was carried out. It says success with the session flag of the CONNACK only when the client has just connected, ALREADY_CONNECTED only if connected or connecting, SHUTDOWN only for a disconnect, and otherwise the error of the attempt that failed. A connect while neither connected nor connecting starts the client.", "quantifier": "every interleaving of connects, disconnects, scheduled tasks and lifecycle events of the client, and of starts and stops of the client by others", "why_tests_cant": "the client is shared, its events are asynchronous and arrive in orders the adapter does not control", "anchors": ["source/v5/mqtt5_to_mqtt3_adapter.c:s_aws_mqtt5_to_mqtt3_adapter_connect_handler", "source/v5/mqtt5_to_mqtt3_adapter.c:s_aws_mqtt5_to_mqtt3_adapter_lifecycle_handler", "source/v5/mqtt5_to_mqtt3_adapter.c:s_aws_mqtt5_to_mqtt3_adapter_disconnect_handler"]}
{"id": "C81", "title": "A disconnect over an MQTT 5 client is answered once", "statement": "For a 3.1.1 connection made from an MQTT 5 client: the callback of a disconnect is called at most once and only after the disconnect was carried out. If it has not been called, then the client was told to stop by this disconnect, it has not stopped since then, and no connect was carried out since then.", "quantifier": "every interleaving of connects, disconnects, scheduled tasks and lifecycle events of the client, and of starts and stops of the client by others", "why_tests_cant": "the client is shared, its events are asynchronous and arrive in orders the adapter does not control", "anchors": ["source/v5/mqtt5_to_mqtt3_adapter.c:s_aws_mqtt5_to_mqtt3_adapter_disconnect_handler", "source/v5/mqtt5_to_mqtt3_adapter.c:s_aws_mqtt5_to_mqtt3_adapter_lifecycle_handler"]}
{"id": "C82", "title": "A 3.1.1 connection over an MQTT 5 client reports interruptions and resumptions while connected", "statement": "For a 3.1.1 connection made from an MQTT 5 client: from a successful connect until a disconnect or a stop of the client, each loss of the connection is reported as an interruption and each new connection as a resumption, with the session flag of its CONNACK, but for a loss that a connect itself has caused. At other times none is reported. Errors are given as 3.1.1 codes where there is one.", "quantifier": "every interleaving of connects, disconnects, scheduled tasks and lifecycle events of the client, and of starts and stops of the client by others", "why_tests_cant": "the client is shared, its events are asynchronous and arrive in orders the adapter does not control", "anchors": ["source/v5/mqtt5_to_mqtt3_adapter.c:s_aws_mqtt5_to_mqtt3_adapter_lifecycle_handler", "source/v5/mqtt5_to_mqtt3_adapter.c:s_translate_mqtt5_error_code_to_mqtt311"]}
{"id": "C83", "title": "Operations on a 3.1.1 connection over an MQTT 5 client get ids of their own", "statement": "For a 3.1.1 connection made from an MQTT 5 client: publish, subscribe, unsubscribe and resubscribe return an id between 1 and 65535 that no other open operation has. With valid arguments they fail only if 65535 operations are open.", "quantifier": "every history of calls, tasks, completions and destruction", "why_tests_cant": "the id counter wraps around while old operations are still open", "anchors": ["source/v5/mqtt5_to_mqtt3_adapter.c:aws_mqtt5_to_mqtt3_adapter_operation_table_add_operation", "source/v5/mqtt5_to_mqtt3_adapter.c:s_next_adapter_id"]}
{"id": "C84", "title": "Each operation on a 3.1.1 connection over an MQTT 5 client is reported once", "statement": "For a 3.1.1 connection made from an MQTT 5 client: the callback of each accepted publish, subscribe, unsubscribe and resubscribe is called exactly once by the time the termination callback is called, with the id the call returned, and never for one that was refused. It is called when the client completes the operation, with its error code, but for a publish whose PUBACK has a failing reason code, which fails; with NO_TOPICS if there is nothing to resubscribe to; and with CONNECTION_DESTROYED at the destruction.", "quantifier": "every history of calls, tasks, completions and destruction, completions within the submission and after the destruction included", "why_tests_cant": "an operation is shared by the table, a task and the client, which let go of it in any order", "anchors": ["source/v5/mqtt5_to_mqtt3_adapter.c:s_aws_mqtt5_to_mqtt3_adapter_publish_completion_fn", "source/v5/mqtt5_to_mqtt3_adapter.c:s_adapter_subscribe_submission_fn", "source/v5/mqtt5_to_mqtt3_adapter.c:aws_mqtt5_to_mqtt3_adapter_operation_table_clean_up"]}
{"id": "C85", "title": "A 3.1.1 connection over an MQTT 5 client is destroyed safely", "statement": "For a 3.1.1 connection made from an MQTT 5 client: after it is released and its listener is detached it is destroyed as soon as the tasks of its operations have run. Nothing is called after the termination callback, and nothing that was freed is used, also if the client completes operations after that.", "quantifier": "every history of calls, tasks, completions and destruction, completions after the destruction included", "why_tests_cant": "operations outlive the connection in the client's queues", "anchors": ["source/v5/mqtt5_to_mqtt3_adapter.c:s_mqtt_adapter_final_destroy_task_fn", "source/v5/mqtt5_to_mqtt3_adapter.c:s_adapter_publish_operation_destroy", "source/v5/mqtt5_to_mqtt3_adapter.c:s_aws_mqtt5_to_mqtt3_adapter_operation_release_cross_thread_refs"]}
{"id": "C86", "title": "Requests with the same correlation token are never in progress together", "statement": "When the request-response client hands the message of a request to the protocol client, each request with the same correlation token whose message it handed over before has been completed; so an answer with this token belongs to one request only.", "quantifier": "every configuration and every history of API calls, task orders, completions and events from the protocol client", "why_tests_cant": "the earlier request may end by an answer, a timeout, a failed publish or lost subscription at any point while the later one is in the queue", "anchors": ["source/request-response/request_response_client.c:s_can_operation_dequeue", "source/request-response/request_response_client.c:s_add_in_progress_operation_to_tracking_tables", "source/request-response/request_response_client.c:s_remove_operation_from_client_tables"]}
{"id": "C87", "title": "A request that waits for its correlation token goes ahead when the token is free", "statement": "A request that waits in the queue of the request-response client because another one with its correlation token is in progress is taken from the queue once that one is over, without waiting for an unrelated event.", "quantifier": "every configuration and every history of API calls, task orders, completions and events from the protocol client", "why_tests_cant": "whether the client is woken depends on which other operations share the topic filters of the one that ended", "anchors": ["source/request-response/request_response_client.c:s_mqtt_rr_client_destroy_operation", "source/request-response/request_response_client.c:s_mqtt_request_response_client_wake_service", "source/request-response/request_response_client.c:s_process_queued_operations"]}
{"id": "C88", "title": "Requests and streams are taken up in the order in which they were queued", "statement": "When the request-response client turns to a request or a stream in its queue, each operation that was put in the queue before it has been taken from it or destroyed; no operation overtakes another, also while one waits for its correlation token or for a subscription.", "quantifier": "every configuration and every history of API calls, task orders, completions and events from the protocol client", "why_tests_cant": "operations leave the queue by being taken, by refusal and by destruction, at any point and in any order of tasks", "anchors": ["source/request-response/request_response_client.c:s_process_queued_operations", "source/request-response/request_response_client.c:s_mqtt_rr_client_submit_operation", "source/request-response/request_response_client.c:s_mqtt_rr_client_destroy_operation"]}
