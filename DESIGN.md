# Formal model of aws-c-mqtt: design

Properties are in `properties.jsonl` (C01...). The model is hand-written Gallina, read from `/repo` at the pinned
commit; nothing in `/repo` is executed. Every model definition cites the file and lines it models.

## Layout (`rocq/theories`)

For each component `X` there are up to four files:

* `X_Model.v`  - the model: total computable functions transcribed from the C code. No proofs.
* `X_Spec.v`   - a small independent specification (what the English says), not using the model's helpers.
* `X_Proofs.v` - lemmas.
* `X_Properties.v` - only the property theorems (`exact lemma.`), each followed by `Print Assumptions`, and `Example`s
  showing that a concrete non-trivial case meets the hypotheses. A property that is false of the code is stated as
  `..._refuted` with a concrete witness.

## Modelling conventions

* A byte is an `N`; a byte string (`aws_byte_cursor`, `aws_byte_buf`) is a `list N`. Theorems carry `bytes_ok`
  (every element < 256) where it matters. Strings are values; aliasing is only modelled where a property is about it
  (C17).
* C integers are `N`; wrap-around (`mod 2^32`, `mod 2^64`), saturation and truncating casts are written explicitly where the
  code performs them and they can matter.
* A function that can `aws_raise_error` returns a result type; an `AWS_FATAL_ASSERT` that fails is a distinct outcome (`Abort`/`Crash`),
  and so is a use of freed memory (`UB`).
* Memory allocation never fails (aws_mem_acquire aborts the process on failure). Logging is not modelled.
* User callbacks and oracles (random numbers, clocks, validity of handler results) are function arguments or inputs of the
  step function, universally quantified in theorems.
* One event loop: all `mqtt5_client.c` code modelled runs on the client's event loop thread; cross-thread tasks are modelled as
  step inputs delivered in arbitrary order. Data races are out of scope.

## Trusted base

* Coq 8.16.1's kernel (with `vm_compute`), the standard library. Every property theorem is followed by `Print Assumptions`; each prints
  `Closed under the global context`: no axioms, neither the library's nor our own. (`coqchk` lists the rewriting keys of
  `Coq.ssr.ssrunder`, which come with the standard library's `ssreflect` prelude and are used by no theorem.)
* The reading of the C source into Gallina, function by function; each definition cites its lines.
* The semantics of aws-c-common functions: byte cursors and buffers (big endian; `aws_byte_cursor_advance` past the end returns an empty cursor
  and does not advance; `aws_byte_buf_write` refuses what does not fit), `aws_byte_cursor_next_split` (all segments, empty ones included),
  hash tables as finite maps walked through in an unspecified order, linked lists, priority queues (minimum by key), `aws_lru_cache` (a use moves an
  entry to the front; putting one into a full cache evicts the last), saturating and checked arithmetic, `aws_timestamp_convert`,
  `aws_decode_utf8` as RFC 3629 (no overlong forms, no surrogates, nothing above U+10FFFF), reference counts (the destructor runs when the count
  goes from one to zero), scheduled tasks (run on the event loop thread, those for "now" in order).
* aws-c-io (channels, event loops, sockets, TLS, proxies) is the environment: its callbacks are inputs of the step functions, in any order.

## What is modelled and what is not

| Source | Model | Left out |
|---|---|---|
| `fixed_header.c`, `packets.c` | `Fixed311_Model`, `Packets311_Model`: all packets, sizes in 64 bits with wrap-around | logging |
| `mqtt311_decoder.c` | `Decoder311_Model`: whole file | - |
| `mqtt.c` 16-92, 338-371; `v5/mqtt5_utils.c` 427-568 | `Topic_Model`: validation and IoT Core helpers | error tables, library init |
| `topic_tree.c` | `TopicTree_Model`: whole file, with an explicit heap of strings | allocation failure |
| `mqtt_subscription_set.c` | `SubSet_Model`: whole file | qos and weak-reference fields (unused by it) |
| `v5/mqtt5_topic_alias.c` | `TopicAlias_Model`: whole file and its call sites | - |
| `v5/rate_limiters.c` | `RateLimiter_Model`: token bucket; fixed-width arithmetic explicit | - |
| `v5/mqtt5_encoder.c` | `Encoder5_Model`: all packets, steps, partial buffers | sums of lengths of buffers in memory together are unbounded numbers |
| `v5/mqtt5_decoder.c` | `Decoder5_Model`: all packets | casts of cursor lengths to 32 bits (a packet is shorter than 2^28 bytes) |
| `v5/mqtt5_options_storage.c` | `Validate5_Model`: all `..._validate` functions; storage as values (`Mqtt5_Views`) | copying into storage, logging |
| `v5/mqtt5_utils.c` 112-264 | `Negotiated_Model`: negotiated settings | - |
| `v5/mqtt5_client.c` | `Client5_State`, `Client5_Model`: API, tasks, state machine, queues, flow control, timers, back-off, statistics, manual PUBACKs | see the head of `Client5_Model.v`: one clock reading per handler, asynchronous channel shutdown, no re-entrance, no listeners that swallow publishes, websocket handshake folded into the connection attempt |
| `request-response/request_response_client.c`, `subscription_manager.c`, `request_response_subscription_set.c` | `RR_Model`: whole files | see the head of `RR_Model.v`: the protocol client is the environment, JSON is parsed by the environment, no cancelled tasks, one user reference per stream |
| `client.c`, `client_channel_handler.c` | `Client311_Model`: requests, sending, acknowledgements, time-outs, keep-alive, connecting, reconnecting, disconnecting, destruction, statistics | see the head of `Client311_Model.v`: atomic API calls, packets are decoded already, listeners, metrics, websocket handshake (but for its outcome), proxy, will, credentials, set_* functions without effect on requests |
| `mqtt_iot_metrics.c` | `Metrics_Model`: validation, appending to the user name | the copy of the metrics a client keeps (`aws_mqtt_iot_metrics_storage_new`); allocation failure |
| `v5/mqtt5_callbacks.c`, `v5/mqtt5_listener.c`, `mqtt311_listener.c` | `Listeners_Model`: the list of callback sets, listeners, their tasks and references | cancelled tasks; destroying the client with its list; that the user's handlers run in between (they can only change counts and schedule tasks) |
| `request-response/protocol_adapter.c` | `Adapter_Model`: operations with their data, completion, termination, events of the client, for MQTT 5 and 3.1.1 | `is_connected`, `get_event_loop`; the contents of packets and messages; NULL callbacks; failing allocation |
| `v5/mqtt5_to_mqtt3_adapter.c` 20-55, 171-195, 315-580, 630-694 | `Bridge_Model`: connect, disconnect, their tasks, the handler of lifecycle events, error codes | the configuration a connect changes; cancelled tasks; NULL callbacks |
| `v5/mqtt5_to_mqtt3_adapter.c` 62-146, 1703-2734, 2872-2945, 3027-3146 | `BridgeOps_Model`: publish, subscribe, unsubscribe, resubscribe, the table of operations and its ids, references, destruction | the packets and the arguments of callbacks but for id and error code; the tree of subscriptions; incoming messages; more than one reference of the user; tasks of setters, which keep the adapter alive as those of operations do |
| the rest of `v5/mqtt5_to_mqtt3_adapter.c`: setters, websockets, statistics | not modelled | |
| `shared.c` | not modelled | |

## Plan per property

| Property | Model | How it is proved |
|---|---|---|
| C01 | `Fixed311` | induction on the 7-bit groups; refutation above 2^28 |
| C02, C03, C06 | `Packets311` | round trip per packet by cursor lemmas; lists by induction; refutations |
| C04, C05 | `Decoder311` | refinement to a byte-at-a-time specification machine, induction on chunks |
| C07 | VLI functions of `Encoder5`, `Decoder5` | induction on groups |
| C08 | `Encoder5` | steps with residual cursors, induction on steps and buffers |
| C09, C10 | `Encoder5`, `Decoder5`, the wire grammar `Mqtt5_Spec` | per packet step-list lemmas |
| C11, C12 | `Decoder5` | as C04; accepted streams are sequences of packets of the grammar |
| C13, C14, C15 | `Topic` | grammar specification; induction on strings; arithmetic for code points |
| C16, C17, C39 | `TopicTree` | abstraction to a finite map of filters; heap invariant; refutation witnesses |
| C18, C38 | `SubSet` | refinement to a finite map of filters |
| C19, C20 | `TopicAlias` | simulation with a server that replays registrations |
| C21, C22 | `RateLimiter` | invariant against exact rational regeneration |
| C23-C31, C43-C46 | `Client5` | each handler is a sequence of small steps (`Client5_Steps`, `..._Decomp*`); one invariant per property, kept by every small step |
| C32, C33, C47 | `Client5` | same, at the level of handlers, with clock readings (`Client5_Backoff`, `_Pings`, `_Wakeup`) |
| C34, C36, C48 | `Client5` | same |
| C35 | `Client5` | refuted by a concrete history (see F3) |
| C37 | `Encoder5` and client validation | refutation witness; bound on the excess |
| C40 | `Validate5` | equivalence with the written-out rules of the standard |
| C50-C59 | `RR` | as for `Client5`: `RR_Steps`, `RR_Decomp`, one invariant per topic |
| C60-C67 | `Client311` | handlers are sequences of small steps on a view of the state (`_Requests`, `_Steps`), one invariant about the view and the trace |
| C68 | `Client311` | the state is a function of the trace (`_Phases`) |
| C69-C71 | `Client311` | the subscription tree is a function of the trace (`_Tree`); `TopicTree`'s theorem says which filters match |
| C72, C73 | `Metrics` | equality with a closed form, reading which gives the parameters back |
| C74 - C76 | `Listeners` | invariant over all histories that ties references, tasks and callback sets of each listener to the trace |
| C77 - C79 | `Adapter` | invariant over all histories that ties the list of incomplete operations and their data to the operations that are open in the trace |
| C80 - C82 | `Bridge` | invariant over all histories that ties the state of the adapter and its two stored callbacks to the connects and disconnects that are open in the trace |
| C83 - C85 | `BridgeOps` | invariant over all histories that ties table, references, tasks and completion callbacks to the operations that are open in the trace |
| C86, C87 | `RR_Tokens` | invariant: each request in the tables owns its token, also while it is being destroyed, and no one has the token of a request that is being taken from the queue; C87 is refuted by a history |
| C88 | `RR_Order` | invariant: of two operations put in the queue, the earlier is before the later in it, or has been taken or destroyed |

Theorems about the clients speak about the trace of observable events (API calls, callbacks, packets) of an arbitrary history: a list of
arbitrary events, of which those that are not enabled are skipped. Where a theorem assumes that no assertion has failed, events emitted by a handler
before the assertion fails in it are not covered.

## Findings

Behaviour of the code that contradicts a property, or that a reader should know about. Where a theorem shows it, it is named.

* F1 (C45_flow_control_refuted) Flow control: the service loop skips operations that fail validation and takes the next one without checking the receive
  maximum again; a QoS 1 publish taken that way with no token left fails an assertion (mqtt5_client.c 3362-3390, 3657).
* F2 (C45_hostile_server_refuted) A server that answers CONNECT with another packet, then sends DISCONNECT, makes the client fail an assertion (358, 1830, 1916).
* F3 (C35) A QoS 1 PUBLISH received while the client is disconnecting queues its PUBACK in front of the DISCONNECT. Nothing of the queue is sent then, the
  service task is no longer scheduled and stop() never completes (1851-1866, 1897, 3139).
* F4 (C44_refuted) An operation for which no packet id is left, or which the encoder refuses (topic alias above the server's maximum), is taken from the queue and never completed (1091, 1103, 3392-3395).
* F5 (C44_lost_only_if_partial) The DISCONNECT given to stop() is dropped without completion if the client is stopped already or is not connected (711, 2179).
* F6 Decorrelated jitter never updates its last delay, so it is full jitter (C32's bounds hold all the same).
* F7 (C23_ids_distinct_refuted) An operation in the queue that has its packet id already can collide with a newly assigned id, under the offline policy that keeps all but QoS 0 publishes (2761-2785, 2940).
* F8 (C37_packet_id_refuted, C37_alias_refuted) The packet size is checked before packet id and topic alias are added.
* F9 After a reconnection without session, QoS 1 publishes are sent again with their old packet id and DUP (2896, 3078).
* F10 A manual PUBACK whose task is cancelled is never completed (2511).
* F11 A CONNACK in a connected client is ignored; acknowledgements are not checked to be of the type the operation expects.
* F12 A SUBACK or UNSUBACK for the packet id of another kind of operation makes the client read its storage as if it were of the kind acknowledged.
* F13 stop() with a DISCONNECT before CONNECT has been written sends the DISCONNECT as the first packet.
* F14 A CONNACK is accepted before CONNECT has been written.
* F15 (C46_lifecycle_refuted) stop() with a DISCONNECT while connecting reports a failed connection and, after start(), a success without a new attempt.
* F16 (C26_bytes_sent_refuted) The statistics count a QoS 1 publish without its packet id, and requests too large to be encoded not at all.
* F17 (C50_completed_once_refuted, C53_published_before_completion_refuted) A request whose time is up while it is in the queue is completed with a timeout and, as it stays in the queue
  until its destroy task runs, may be taken from the queue by the same run of the service task: it is subscribed and published all the same, its state is reset and it can be completed a second
  time (request_response_client.c 1145-1172, 1327-1394, 1265-1297); the reference count then drops below zero.
* F18 (C52_own_path_refuted) A response is matched to a request by the correlation token alone: the client takes the topic's JSON path from a table shared by all requests (which keeps the path of the
  first request on that topic, request_response_subscription_set.c:173-198) and looks up the token, but does not check that the request named this topic or path. A message on another request's topic completes it.
* F19 (C57_parent_level_refuted) A stream on "a/#" is not given messages on "a", which the server sends it (s_is_topic_matched_to_subscription, request_response_subscription_set.c:240-277).
* F20 (C58_published_when_subscribed_refuted) A request waits for as many successful subscriptions as it has filters (request_response_client.c:1992), but only filters which are not yet subscribed when it is taken
  from the queue produce such events. A request with one filter already subscribed and another not, or with the same filter twice, is never published and times out.
* F21 (C62_success_has_its_reason_refuted) 3.1.1 client: PUBACK, PUBCOMP and UNSUBACK complete whatever request has their id (client_channel_handler.c 354-372, 440-458, 541-559, 1013-1068).
* F22 (C64_sent_in_order_refuted) 3.1.1 client: when a connection is lost, requests which were scheduled but not sent go before those sent and not answered, and are sent first on the next one (client.c 319-383).
* F23 (C67_in_time_refuted) 3.1.1 client: if the channel does not take a QoS 1 publish, the publish waits for an answer without a timeout (client.c 3232-3246). Requests made while offline do not time out either, and each resending starts the time anew.
* F24 (C68_completed_once_refuted) 3.1.1 client: if CONNECT cannot be sent, on_connection_complete and on_connection_failure are called when that is noticed and again when the channel has shut down (client.c 503-720, 455-467); during a reconnection they are called, too.
* F25 (C70_exactly_once_refuted) 3.1.1 client: the packet ids of incoming QoS 2 messages are not kept, so a PUBLISH the server sends again before it has got PUBREC is delivered again (client_channel_handler.c, s_packet_handler_publish).
* F26 (C70_not_published_again_refuted) 3.1.1 client: a PUBREC does not change the state of the publish, so after a reconnection PUBLISH is sent again, where the standard requires PUBREL.
* F27 (C71_resubscribes_to_all_refuted) 3.1.1 client: the subscription tree holds the filter of a shared subscription without $share/group/ (client.c 2104-2125), and resubscribing takes the filters from the tree: the client then gets every message instead of its share.
* F28 (C72_user_name_kept_refuted, C72_question_mark_refuted) The query of a user name is taken apart and put together again when SDK metrics are added: "b=" becomes "b", empty parameters vanish. The text of the metrics is not escaped or checked for separators, so a '?' in it moves the end of the user name a server sees.
* F29 (C73_no_null_pointer_refuted) If the name with metrics is longer than 65535 bytes, aws_mqtt_append_sdk_metrics_to_username calls aws_byte_buf_clean_up on its output buffer, which is NULL when only the size is asked for, as the MQTT 5 client does (mqtt5_options_storage.c 649-660): a user name close to the limit makes it read through a null pointer.
* F30 (C80_answered_refuted) 3.1.1 connection over an MQTT 5 client: if somebody else stops the client while a connect waits, the stopped event sets the state to STAY_DISCONNECTED (mqtt5_to_mqtt3_adapter.c 468-492) and the connect's completion callback stays stored; it is never called, and the next connect overwrites it.
* F31 (C87_taken_when_free_refuted) A request that waits in the queue for its correlation token is not taken when the request that had the token is over, if another operation uses the same topic filters: destroying an operation (s_mqtt_rr_client_destroy_operation, request_response_client.c:1743-1786) frees the token but does not wake the service task, and only the event that a subscription has no more listeners does. The request, and all behind it, then wait for a timeout, a new operation or an unrelated subscription event, although nothing is in the way.
* Also: a server maximum packet size below 4 makes PUBACKs fail validation silently (assumed away in C29, C33, C34); a publish's user-set DUP flag is passed
  through; PUBACKs for unknown ids still add tokens to the rate limiter; the clock value 0 means "never"; huge ack timeouts and CONNACK timeouts wrap around.
* 3.1.1: remaining lengths above 2^28 - 1 (C01), SUBSCRIBE ignoring write failures and long filters, a CONNECT with two wills (C03), overlong strings (C06), 'a/#' not matching 'a'
  (C16), a use after free in the topic tree (C17), a leak on roll-back (C39).
* MQTT 5 decoder leniencies (C12_lenient_refuted, C12_suback_length_refuted). '$share' in any letter case (C15). The rate limiter after very long pauses (C21). Subscription set with NULL user data (C38), with a topic that is no topic name (C18).
