(** Model of the MQTT 3.1.1 client: source/client.c and source/client_channel_handler.c. Everything but the API calls happens on one
    event-loop thread; the model is a state machine whose steps are the API calls, the callbacks of the channel and the tasks run on that thread.

    Simplifications. API calls are atomic and are not made from within callbacks, but for a disconnect from within on_interrupted. Packets are decoded
    already (decoding is C02-C05); an outgoing packet is one message. Whether a packet can be encoded and whether the channel takes it is up to the
    environment. The subscription tree is the finite map which it refines (C16); its memory faults (C17) are left out, but the strings it lends
    to a resubscribe are not. Outgoing tasks run in the order in which they were scheduled. When a channel has shut down, the tasks
    scheduled on it are cancelled, then s_mqtt_client_shutdown runs; all that is one step. A DISCONNECT packet is sent just before. The user has one
    reference to the connection; another one is held by the client while it is not DISCONNECTED. All clocks are one clock. Callbacks are never NULL, but for the
    completion of a ping. Listeners, metrics, websocket handshakes (but for their outcome), proxies, wills and credentials are left out. *)
From Verif Require Import Base Split Topic_Model TopicAlias_Model.

(** ** Vocabulary *)
(** enum aws_mqtt_client_connection_state, client_impl.h:58-64 *)
Inductive cstate := CONNECTING | CONNECTED | RECONNECTING | DISCONNECTING | DISCONNECTED.
Definition cstate_eqb (a b : cstate) : bool :=
  match a, b with CONNECTING, CONNECTING | CONNECTED, CONNECTED | RECONNECTING, RECONNECTING | DISCONNECTING, DISCONNECTING | DISCONNECTED, DISCONNECTED => true | _, _ => false end.
(** the channel: none, being set up by the bootstrap, set up *)
Inductive net := NO_CHANNEL | DIALLING | UP.
Definition net_eqb (a b : net) : bool := match a, b with NO_CHANNEL, NO_CHANNEL | DIALLING, DIALLING | UP, UP => true | _, _ => false end.
(** error codes: AWS_ERROR_SUCCESS, AWS_ERROR_MQTT_NOT_CONNECTED, _TIMEOUT, _CANCELLED_FOR_CLEAN_SESSION, _CONNECTION_DESTROYED, _PROTOCOL_ERROR, _UNEXPECTED_HANGUP,
    _CONNECTION_DISCONNECTING, _QUEUE_FULL; whatever made a packet impossible to send; others *)
Inductive why := OK | E_NOT_CONNECTED | E_TIMEOUT | E_CLEAN_SESSION | E_DESTROYED | E_PROTOCOL | E_HANGUP | E_DISCONNECTING | E_QUEUE_FULL | E_SEND | E_OTHER (n : N).
(** what the user asks for; pings are made by the client itself *)
Inductive kind := K_PUBLISH (qos : N) (retain : bool) (topic payload : bytes) | K_SUBSCRIBE (topics : list (bytes * N)) | K_RESUBSCRIBE | K_UNSUBSCRIBE (f : bytes) | K_PING.
(** packets to the server, and from it. For PUBLISH: packet id, QoS, DUP, RETAIN, topic, payload *)
Inductive packet :=
| CONNECT (clean : bool) (keep_alive_s : N) | PUBLISH (id qos : N) (dup retain : bool) (topic payload : bytes) | PUBACK (id : N) | PUBREC (id : N) | PUBREL (id : N) | PUBCOMP (id : N)
| SUBSCRIBE (id : N) (topics : list (bytes * N)) | UNSUBSCRIBE (id : N) (f : bytes) | PINGREQ | DISCONNECT
| CONNACK (session : bool) (code : N) | SUBACK (id : N) (codes : list N) | UNSUBACK (id : N) | PINGRESP.
(** struct aws_mqtt_request, client_impl.h:129-160, with the *_task_arg of its kind. [q_uid] is its address; [q_size]: packet_size. [q_sent]: initiated; [q_tree]: tree_updated;
    [q_subs]: the topics of a resubscribe's packet once that is initialised, with the strings of the tree they point to; [q_topics]: the length of a resubscribe's
    task_arg->topics; [q_incomplete], [q_unacked]: statistic_state_flags; [q_at]: request_send_timestamp; [q_timer]: when its timeout task is due; [q_wait]: timeout_duration_in_ns *)
Record req := mkreq { q_uid : N; q_id : N; q_kind : kind; q_size : N; q_sent : bool; q_tree : bool; q_subs : option (list (bytes * N * N)); q_topics : N; q_incomplete : bool; q_unacked : bool; q_at : N; q_timer : option N; q_wait : N }.
Definition with_sent x r := mkreq (q_uid r) (q_id r) (q_kind r) (q_size r) x (q_tree r) (q_subs r) (q_topics r) (q_incomplete r) (q_unacked r) (q_at r) (q_timer r) (q_wait r).
Definition with_tree x r := mkreq (q_uid r) (q_id r) (q_kind r) (q_size r) (q_sent r) x (q_subs r) (q_topics r) (q_incomplete r) (q_unacked r) (q_at r) (q_timer r) (q_wait r).
Definition with_subs x r := mkreq (q_uid r) (q_id r) (q_kind r) (q_size r) (q_sent r) (q_tree r) x (q_topics r) (q_incomplete r) (q_unacked r) (q_at r) (q_timer r) (q_wait r).
Definition with_topics x r := mkreq (q_uid r) (q_id r) (q_kind r) (q_size r) (q_sent r) (q_tree r) (q_subs r) x (q_incomplete r) (q_unacked r) (q_at r) (q_timer r) (q_wait r).
Definition with_incomplete x r := mkreq (q_uid r) (q_id r) (q_kind r) (q_size r) (q_sent r) (q_tree r) (q_subs r) (q_topics r) x (q_unacked r) (q_at r) (q_timer r) (q_wait r).
Definition with_unacked x r := mkreq (q_uid r) (q_id r) (q_kind r) (q_size r) (q_sent r) (q_tree r) (q_subs r) (q_topics r) (q_incomplete r) x (q_at r) (q_timer r) (q_wait r).
Definition with_at x r := mkreq (q_uid r) (q_id r) (q_kind r) (q_size r) (q_sent r) (q_tree r) (q_subs r) (q_topics r) (q_incomplete r) (q_unacked r) x (q_timer r) (q_wait r).
Definition with_timer x r := mkreq (q_uid r) (q_id r) (q_kind r) (q_size r) (q_sent r) (q_tree r) (q_subs r) (q_topics r) (q_incomplete r) (q_unacked r) (q_at r) x (q_wait r).
(** what happens, newest first. O_: calls of the user's callbacks ([O_COMPLETE]: an operation's completion callback), and packets passed to the channel
    ([O_SEND]: the packet of an operation, with the channel's answer); [O_PING_OVER] is no callback, but notes that a ping's request is no more. I_: calls of the API, with their answer ([I_MADE], [I_REFUSED]), and what comes in ([I_UP]: a channel has been set up; [I_DOWN]: it has shut down, or could not be set up; [I_SHUTDOWN]: its shutdown begins; [I_DIAL]: the bootstrap is asked for one). *)
Inductive out :=
| O_COMPLETE (u id : N) (e : why) | O_SUBACK (u : N) (codes : list N) | O_CONNECTION_COMPLETE (e : why) (code : N) (session : bool) | O_CONNECTION_SUCCESS (session : bool) | O_CONNECTION_FAILURE (e : why)
| O_INTERRUPTED (e : why) | O_RESUMED (session : bool) | O_DISCONNECT | O_CLOSED | O_TERMINATED
| O_PING_OVER (u : N) | O_DELIVER (f topic payload : bytes) | O_ANY_PUBLISH (topic payload : bytes) (dup : bool) (qos : N) (retain : bool)
| O_SEND (u : N) (p : packet) (ok : bool) | O_WRITE (p : packet) (ok : bool)
| I_MADE (u id : N) (k : kind) (wait : N) | I_REFUSED (k : kind) (e : why) | I_CONNECT (clean : bool) | I_DISCONNECT | I_PACKET (p : packet) | I_UP | I_DOWN (e : why) | I_SHUTDOWN (e : why) | I_DIAL (ok : bool) | I_TICK (now : N).
(** struct aws_mqtt_connection_operation_statistics_impl, client_impl.h:75-98 *)
Record stats := mkstats { n_incomplete : N; n_incomplete_size : N; n_unacked : N; n_unacked_size : N }.
(** struct aws_mqtt_client_connection_311_impl, client_impl.h:215-381. [m_closing]: aws_channel_shutdown has been called, with this error; [m_now]: the clock; [m_keep], [m_ping], [m_op]: keep_alive_time_ns,
    ping_timeout_ns, operation_timeout_ns; [m_min], [m_max], [m_cur], [m_since]: reconnect_timeouts; [m_reconnect]: NULL, or when the task is scheduled; [m_count]: connection_count;
    [m_ping_task]: when it is scheduled for; [m_ping_timeouts], [m_connack_timeouts], [m_byes]: scheduled tasks s_pingresp_received_timeout, s_connack_received_timeout, s_mqtt_disconnect_task;
    [m_heap]: the requests; [m_table]: outstanding_requests_table; [m_tasks]: scheduled outgoing tasks; [m_last]: packet_id; [m_tree]: filter, QoS and string; [m_held]: the user's reference;
    [m_over]: destroyed; [m_crash]: something undefined has happened *)
Record mqtt := mkmqtt { m_now : N; m_state : cstate; m_net : net; m_closing : option why; m_slot : bool; m_clean : bool; m_keep : N; m_ping : N; m_op : N; m_min : N; m_max : N; m_cur : N; m_since : N; m_reconnect : option (option N); m_count : N; m_waiting : bool; m_next_ping : N; m_ping_task : option N; m_ping_timeouts : list N; m_connack_timeouts : list N; m_byes : N; m_heap : list req; m_table : list (N * N); m_tasks : list N; m_ongoing : list N; m_pending : list N; m_last : N; m_next : N; m_tree : list (bytes * N * N); m_stamp : N; m_stats : stats; m_held : bool; m_over : bool; m_out : list out; m_crash : bool }.
Definition set_now x s := mkmqtt x (m_state s) (m_net s) (m_closing s) (m_slot s) (m_clean s) (m_keep s) (m_ping s) (m_op s) (m_min s) (m_max s) (m_cur s) (m_since s) (m_reconnect s) (m_count s) (m_waiting s) (m_next_ping s) (m_ping_task s) (m_ping_timeouts s) (m_connack_timeouts s) (m_byes s) (m_heap s) (m_table s) (m_tasks s) (m_ongoing s) (m_pending s) (m_last s) (m_next s) (m_tree s) (m_stamp s) (m_stats s) (m_held s) (m_over s) (m_out s) (m_crash s).
Definition set_state x s := mkmqtt (m_now s) x (m_net s) (m_closing s) (m_slot s) (m_clean s) (m_keep s) (m_ping s) (m_op s) (m_min s) (m_max s) (m_cur s) (m_since s) (m_reconnect s) (m_count s) (m_waiting s) (m_next_ping s) (m_ping_task s) (m_ping_timeouts s) (m_connack_timeouts s) (m_byes s) (m_heap s) (m_table s) (m_tasks s) (m_ongoing s) (m_pending s) (m_last s) (m_next s) (m_tree s) (m_stamp s) (m_stats s) (m_held s) (m_over s) (m_out s) (m_crash s).
Definition set_net x s := mkmqtt (m_now s) (m_state s) x (m_closing s) (m_slot s) (m_clean s) (m_keep s) (m_ping s) (m_op s) (m_min s) (m_max s) (m_cur s) (m_since s) (m_reconnect s) (m_count s) (m_waiting s) (m_next_ping s) (m_ping_task s) (m_ping_timeouts s) (m_connack_timeouts s) (m_byes s) (m_heap s) (m_table s) (m_tasks s) (m_ongoing s) (m_pending s) (m_last s) (m_next s) (m_tree s) (m_stamp s) (m_stats s) (m_held s) (m_over s) (m_out s) (m_crash s).
Definition set_closing x s := mkmqtt (m_now s) (m_state s) (m_net s) x (m_slot s) (m_clean s) (m_keep s) (m_ping s) (m_op s) (m_min s) (m_max s) (m_cur s) (m_since s) (m_reconnect s) (m_count s) (m_waiting s) (m_next_ping s) (m_ping_task s) (m_ping_timeouts s) (m_connack_timeouts s) (m_byes s) (m_heap s) (m_table s) (m_tasks s) (m_ongoing s) (m_pending s) (m_last s) (m_next s) (m_tree s) (m_stamp s) (m_stats s) (m_held s) (m_over s) (m_out s) (m_crash s).
Definition set_slot x s := mkmqtt (m_now s) (m_state s) (m_net s) (m_closing s) x (m_clean s) (m_keep s) (m_ping s) (m_op s) (m_min s) (m_max s) (m_cur s) (m_since s) (m_reconnect s) (m_count s) (m_waiting s) (m_next_ping s) (m_ping_task s) (m_ping_timeouts s) (m_connack_timeouts s) (m_byes s) (m_heap s) (m_table s) (m_tasks s) (m_ongoing s) (m_pending s) (m_last s) (m_next s) (m_tree s) (m_stamp s) (m_stats s) (m_held s) (m_over s) (m_out s) (m_crash s).
Definition set_clean x s := mkmqtt (m_now s) (m_state s) (m_net s) (m_closing s) (m_slot s) x (m_keep s) (m_ping s) (m_op s) (m_min s) (m_max s) (m_cur s) (m_since s) (m_reconnect s) (m_count s) (m_waiting s) (m_next_ping s) (m_ping_task s) (m_ping_timeouts s) (m_connack_timeouts s) (m_byes s) (m_heap s) (m_table s) (m_tasks s) (m_ongoing s) (m_pending s) (m_last s) (m_next s) (m_tree s) (m_stamp s) (m_stats s) (m_held s) (m_over s) (m_out s) (m_crash s).
Definition set_keep x s := mkmqtt (m_now s) (m_state s) (m_net s) (m_closing s) (m_slot s) (m_clean s) x (m_ping s) (m_op s) (m_min s) (m_max s) (m_cur s) (m_since s) (m_reconnect s) (m_count s) (m_waiting s) (m_next_ping s) (m_ping_task s) (m_ping_timeouts s) (m_connack_timeouts s) (m_byes s) (m_heap s) (m_table s) (m_tasks s) (m_ongoing s) (m_pending s) (m_last s) (m_next s) (m_tree s) (m_stamp s) (m_stats s) (m_held s) (m_over s) (m_out s) (m_crash s).
Definition set_ping x s := mkmqtt (m_now s) (m_state s) (m_net s) (m_closing s) (m_slot s) (m_clean s) (m_keep s) x (m_op s) (m_min s) (m_max s) (m_cur s) (m_since s) (m_reconnect s) (m_count s) (m_waiting s) (m_next_ping s) (m_ping_task s) (m_ping_timeouts s) (m_connack_timeouts s) (m_byes s) (m_heap s) (m_table s) (m_tasks s) (m_ongoing s) (m_pending s) (m_last s) (m_next s) (m_tree s) (m_stamp s) (m_stats s) (m_held s) (m_over s) (m_out s) (m_crash s).
Definition set_op x s := mkmqtt (m_now s) (m_state s) (m_net s) (m_closing s) (m_slot s) (m_clean s) (m_keep s) (m_ping s) x (m_min s) (m_max s) (m_cur s) (m_since s) (m_reconnect s) (m_count s) (m_waiting s) (m_next_ping s) (m_ping_task s) (m_ping_timeouts s) (m_connack_timeouts s) (m_byes s) (m_heap s) (m_table s) (m_tasks s) (m_ongoing s) (m_pending s) (m_last s) (m_next s) (m_tree s) (m_stamp s) (m_stats s) (m_held s) (m_over s) (m_out s) (m_crash s).
Definition set_min x s := mkmqtt (m_now s) (m_state s) (m_net s) (m_closing s) (m_slot s) (m_clean s) (m_keep s) (m_ping s) (m_op s) x (m_max s) (m_cur s) (m_since s) (m_reconnect s) (m_count s) (m_waiting s) (m_next_ping s) (m_ping_task s) (m_ping_timeouts s) (m_connack_timeouts s) (m_byes s) (m_heap s) (m_table s) (m_tasks s) (m_ongoing s) (m_pending s) (m_last s) (m_next s) (m_tree s) (m_stamp s) (m_stats s) (m_held s) (m_over s) (m_out s) (m_crash s).
Definition set_max x s := mkmqtt (m_now s) (m_state s) (m_net s) (m_closing s) (m_slot s) (m_clean s) (m_keep s) (m_ping s) (m_op s) (m_min s) x (m_cur s) (m_since s) (m_reconnect s) (m_count s) (m_waiting s) (m_next_ping s) (m_ping_task s) (m_ping_timeouts s) (m_connack_timeouts s) (m_byes s) (m_heap s) (m_table s) (m_tasks s) (m_ongoing s) (m_pending s) (m_last s) (m_next s) (m_tree s) (m_stamp s) (m_stats s) (m_held s) (m_over s) (m_out s) (m_crash s).
Definition set_cur x s := mkmqtt (m_now s) (m_state s) (m_net s) (m_closing s) (m_slot s) (m_clean s) (m_keep s) (m_ping s) (m_op s) (m_min s) (m_max s) x (m_since s) (m_reconnect s) (m_count s) (m_waiting s) (m_next_ping s) (m_ping_task s) (m_ping_timeouts s) (m_connack_timeouts s) (m_byes s) (m_heap s) (m_table s) (m_tasks s) (m_ongoing s) (m_pending s) (m_last s) (m_next s) (m_tree s) (m_stamp s) (m_stats s) (m_held s) (m_over s) (m_out s) (m_crash s).
Definition set_since x s := mkmqtt (m_now s) (m_state s) (m_net s) (m_closing s) (m_slot s) (m_clean s) (m_keep s) (m_ping s) (m_op s) (m_min s) (m_max s) (m_cur s) x (m_reconnect s) (m_count s) (m_waiting s) (m_next_ping s) (m_ping_task s) (m_ping_timeouts s) (m_connack_timeouts s) (m_byes s) (m_heap s) (m_table s) (m_tasks s) (m_ongoing s) (m_pending s) (m_last s) (m_next s) (m_tree s) (m_stamp s) (m_stats s) (m_held s) (m_over s) (m_out s) (m_crash s).
Definition set_reconnect x s := mkmqtt (m_now s) (m_state s) (m_net s) (m_closing s) (m_slot s) (m_clean s) (m_keep s) (m_ping s) (m_op s) (m_min s) (m_max s) (m_cur s) (m_since s) x (m_count s) (m_waiting s) (m_next_ping s) (m_ping_task s) (m_ping_timeouts s) (m_connack_timeouts s) (m_byes s) (m_heap s) (m_table s) (m_tasks s) (m_ongoing s) (m_pending s) (m_last s) (m_next s) (m_tree s) (m_stamp s) (m_stats s) (m_held s) (m_over s) (m_out s) (m_crash s).
Definition set_count x s := mkmqtt (m_now s) (m_state s) (m_net s) (m_closing s) (m_slot s) (m_clean s) (m_keep s) (m_ping s) (m_op s) (m_min s) (m_max s) (m_cur s) (m_since s) (m_reconnect s) x (m_waiting s) (m_next_ping s) (m_ping_task s) (m_ping_timeouts s) (m_connack_timeouts s) (m_byes s) (m_heap s) (m_table s) (m_tasks s) (m_ongoing s) (m_pending s) (m_last s) (m_next s) (m_tree s) (m_stamp s) (m_stats s) (m_held s) (m_over s) (m_out s) (m_crash s).
Definition set_waiting x s := mkmqtt (m_now s) (m_state s) (m_net s) (m_closing s) (m_slot s) (m_clean s) (m_keep s) (m_ping s) (m_op s) (m_min s) (m_max s) (m_cur s) (m_since s) (m_reconnect s) (m_count s) x (m_next_ping s) (m_ping_task s) (m_ping_timeouts s) (m_connack_timeouts s) (m_byes s) (m_heap s) (m_table s) (m_tasks s) (m_ongoing s) (m_pending s) (m_last s) (m_next s) (m_tree s) (m_stamp s) (m_stats s) (m_held s) (m_over s) (m_out s) (m_crash s).
Definition set_next_ping x s := mkmqtt (m_now s) (m_state s) (m_net s) (m_closing s) (m_slot s) (m_clean s) (m_keep s) (m_ping s) (m_op s) (m_min s) (m_max s) (m_cur s) (m_since s) (m_reconnect s) (m_count s) (m_waiting s) x (m_ping_task s) (m_ping_timeouts s) (m_connack_timeouts s) (m_byes s) (m_heap s) (m_table s) (m_tasks s) (m_ongoing s) (m_pending s) (m_last s) (m_next s) (m_tree s) (m_stamp s) (m_stats s) (m_held s) (m_over s) (m_out s) (m_crash s).
Definition set_ping_task x s := mkmqtt (m_now s) (m_state s) (m_net s) (m_closing s) (m_slot s) (m_clean s) (m_keep s) (m_ping s) (m_op s) (m_min s) (m_max s) (m_cur s) (m_since s) (m_reconnect s) (m_count s) (m_waiting s) (m_next_ping s) x (m_ping_timeouts s) (m_connack_timeouts s) (m_byes s) (m_heap s) (m_table s) (m_tasks s) (m_ongoing s) (m_pending s) (m_last s) (m_next s) (m_tree s) (m_stamp s) (m_stats s) (m_held s) (m_over s) (m_out s) (m_crash s).
Definition set_ping_timeouts x s := mkmqtt (m_now s) (m_state s) (m_net s) (m_closing s) (m_slot s) (m_clean s) (m_keep s) (m_ping s) (m_op s) (m_min s) (m_max s) (m_cur s) (m_since s) (m_reconnect s) (m_count s) (m_waiting s) (m_next_ping s) (m_ping_task s) x (m_connack_timeouts s) (m_byes s) (m_heap s) (m_table s) (m_tasks s) (m_ongoing s) (m_pending s) (m_last s) (m_next s) (m_tree s) (m_stamp s) (m_stats s) (m_held s) (m_over s) (m_out s) (m_crash s).
Definition set_connack_timeouts x s := mkmqtt (m_now s) (m_state s) (m_net s) (m_closing s) (m_slot s) (m_clean s) (m_keep s) (m_ping s) (m_op s) (m_min s) (m_max s) (m_cur s) (m_since s) (m_reconnect s) (m_count s) (m_waiting s) (m_next_ping s) (m_ping_task s) (m_ping_timeouts s) x (m_byes s) (m_heap s) (m_table s) (m_tasks s) (m_ongoing s) (m_pending s) (m_last s) (m_next s) (m_tree s) (m_stamp s) (m_stats s) (m_held s) (m_over s) (m_out s) (m_crash s).
Definition set_byes x s := mkmqtt (m_now s) (m_state s) (m_net s) (m_closing s) (m_slot s) (m_clean s) (m_keep s) (m_ping s) (m_op s) (m_min s) (m_max s) (m_cur s) (m_since s) (m_reconnect s) (m_count s) (m_waiting s) (m_next_ping s) (m_ping_task s) (m_ping_timeouts s) (m_connack_timeouts s) x (m_heap s) (m_table s) (m_tasks s) (m_ongoing s) (m_pending s) (m_last s) (m_next s) (m_tree s) (m_stamp s) (m_stats s) (m_held s) (m_over s) (m_out s) (m_crash s).
Definition set_heap x s := mkmqtt (m_now s) (m_state s) (m_net s) (m_closing s) (m_slot s) (m_clean s) (m_keep s) (m_ping s) (m_op s) (m_min s) (m_max s) (m_cur s) (m_since s) (m_reconnect s) (m_count s) (m_waiting s) (m_next_ping s) (m_ping_task s) (m_ping_timeouts s) (m_connack_timeouts s) (m_byes s) x (m_table s) (m_tasks s) (m_ongoing s) (m_pending s) (m_last s) (m_next s) (m_tree s) (m_stamp s) (m_stats s) (m_held s) (m_over s) (m_out s) (m_crash s).
Definition set_table x s := mkmqtt (m_now s) (m_state s) (m_net s) (m_closing s) (m_slot s) (m_clean s) (m_keep s) (m_ping s) (m_op s) (m_min s) (m_max s) (m_cur s) (m_since s) (m_reconnect s) (m_count s) (m_waiting s) (m_next_ping s) (m_ping_task s) (m_ping_timeouts s) (m_connack_timeouts s) (m_byes s) (m_heap s) x (m_tasks s) (m_ongoing s) (m_pending s) (m_last s) (m_next s) (m_tree s) (m_stamp s) (m_stats s) (m_held s) (m_over s) (m_out s) (m_crash s).
Definition set_tasks x s := mkmqtt (m_now s) (m_state s) (m_net s) (m_closing s) (m_slot s) (m_clean s) (m_keep s) (m_ping s) (m_op s) (m_min s) (m_max s) (m_cur s) (m_since s) (m_reconnect s) (m_count s) (m_waiting s) (m_next_ping s) (m_ping_task s) (m_ping_timeouts s) (m_connack_timeouts s) (m_byes s) (m_heap s) (m_table s) x (m_ongoing s) (m_pending s) (m_last s) (m_next s) (m_tree s) (m_stamp s) (m_stats s) (m_held s) (m_over s) (m_out s) (m_crash s).
Definition set_ongoing x s := mkmqtt (m_now s) (m_state s) (m_net s) (m_closing s) (m_slot s) (m_clean s) (m_keep s) (m_ping s) (m_op s) (m_min s) (m_max s) (m_cur s) (m_since s) (m_reconnect s) (m_count s) (m_waiting s) (m_next_ping s) (m_ping_task s) (m_ping_timeouts s) (m_connack_timeouts s) (m_byes s) (m_heap s) (m_table s) (m_tasks s) x (m_pending s) (m_last s) (m_next s) (m_tree s) (m_stamp s) (m_stats s) (m_held s) (m_over s) (m_out s) (m_crash s).
Definition set_pending x s := mkmqtt (m_now s) (m_state s) (m_net s) (m_closing s) (m_slot s) (m_clean s) (m_keep s) (m_ping s) (m_op s) (m_min s) (m_max s) (m_cur s) (m_since s) (m_reconnect s) (m_count s) (m_waiting s) (m_next_ping s) (m_ping_task s) (m_ping_timeouts s) (m_connack_timeouts s) (m_byes s) (m_heap s) (m_table s) (m_tasks s) (m_ongoing s) x (m_last s) (m_next s) (m_tree s) (m_stamp s) (m_stats s) (m_held s) (m_over s) (m_out s) (m_crash s).
Definition set_last x s := mkmqtt (m_now s) (m_state s) (m_net s) (m_closing s) (m_slot s) (m_clean s) (m_keep s) (m_ping s) (m_op s) (m_min s) (m_max s) (m_cur s) (m_since s) (m_reconnect s) (m_count s) (m_waiting s) (m_next_ping s) (m_ping_task s) (m_ping_timeouts s) (m_connack_timeouts s) (m_byes s) (m_heap s) (m_table s) (m_tasks s) (m_ongoing s) (m_pending s) x (m_next s) (m_tree s) (m_stamp s) (m_stats s) (m_held s) (m_over s) (m_out s) (m_crash s).
Definition set_next x s := mkmqtt (m_now s) (m_state s) (m_net s) (m_closing s) (m_slot s) (m_clean s) (m_keep s) (m_ping s) (m_op s) (m_min s) (m_max s) (m_cur s) (m_since s) (m_reconnect s) (m_count s) (m_waiting s) (m_next_ping s) (m_ping_task s) (m_ping_timeouts s) (m_connack_timeouts s) (m_byes s) (m_heap s) (m_table s) (m_tasks s) (m_ongoing s) (m_pending s) (m_last s) x (m_tree s) (m_stamp s) (m_stats s) (m_held s) (m_over s) (m_out s) (m_crash s).
Definition set_tree x s := mkmqtt (m_now s) (m_state s) (m_net s) (m_closing s) (m_slot s) (m_clean s) (m_keep s) (m_ping s) (m_op s) (m_min s) (m_max s) (m_cur s) (m_since s) (m_reconnect s) (m_count s) (m_waiting s) (m_next_ping s) (m_ping_task s) (m_ping_timeouts s) (m_connack_timeouts s) (m_byes s) (m_heap s) (m_table s) (m_tasks s) (m_ongoing s) (m_pending s) (m_last s) (m_next s) x (m_stamp s) (m_stats s) (m_held s) (m_over s) (m_out s) (m_crash s).
Definition set_stamp x s := mkmqtt (m_now s) (m_state s) (m_net s) (m_closing s) (m_slot s) (m_clean s) (m_keep s) (m_ping s) (m_op s) (m_min s) (m_max s) (m_cur s) (m_since s) (m_reconnect s) (m_count s) (m_waiting s) (m_next_ping s) (m_ping_task s) (m_ping_timeouts s) (m_connack_timeouts s) (m_byes s) (m_heap s) (m_table s) (m_tasks s) (m_ongoing s) (m_pending s) (m_last s) (m_next s) (m_tree s) x (m_stats s) (m_held s) (m_over s) (m_out s) (m_crash s).
Definition set_stats x s := mkmqtt (m_now s) (m_state s) (m_net s) (m_closing s) (m_slot s) (m_clean s) (m_keep s) (m_ping s) (m_op s) (m_min s) (m_max s) (m_cur s) (m_since s) (m_reconnect s) (m_count s) (m_waiting s) (m_next_ping s) (m_ping_task s) (m_ping_timeouts s) (m_connack_timeouts s) (m_byes s) (m_heap s) (m_table s) (m_tasks s) (m_ongoing s) (m_pending s) (m_last s) (m_next s) (m_tree s) (m_stamp s) x (m_held s) (m_over s) (m_out s) (m_crash s).
Definition set_held x s := mkmqtt (m_now s) (m_state s) (m_net s) (m_closing s) (m_slot s) (m_clean s) (m_keep s) (m_ping s) (m_op s) (m_min s) (m_max s) (m_cur s) (m_since s) (m_reconnect s) (m_count s) (m_waiting s) (m_next_ping s) (m_ping_task s) (m_ping_timeouts s) (m_connack_timeouts s) (m_byes s) (m_heap s) (m_table s) (m_tasks s) (m_ongoing s) (m_pending s) (m_last s) (m_next s) (m_tree s) (m_stamp s) (m_stats s) x (m_over s) (m_out s) (m_crash s).
Definition set_over x s := mkmqtt (m_now s) (m_state s) (m_net s) (m_closing s) (m_slot s) (m_clean s) (m_keep s) (m_ping s) (m_op s) (m_min s) (m_max s) (m_cur s) (m_since s) (m_reconnect s) (m_count s) (m_waiting s) (m_next_ping s) (m_ping_task s) (m_ping_timeouts s) (m_connack_timeouts s) (m_byes s) (m_heap s) (m_table s) (m_tasks s) (m_ongoing s) (m_pending s) (m_last s) (m_next s) (m_tree s) (m_stamp s) (m_stats s) (m_held s) x (m_out s) (m_crash s).
Definition set_out x s := mkmqtt (m_now s) (m_state s) (m_net s) (m_closing s) (m_slot s) (m_clean s) (m_keep s) (m_ping s) (m_op s) (m_min s) (m_max s) (m_cur s) (m_since s) (m_reconnect s) (m_count s) (m_waiting s) (m_next_ping s) (m_ping_task s) (m_ping_timeouts s) (m_connack_timeouts s) (m_byes s) (m_heap s) (m_table s) (m_tasks s) (m_ongoing s) (m_pending s) (m_last s) (m_next s) (m_tree s) (m_stamp s) (m_stats s) (m_held s) (m_over s) x (m_crash s).
Definition set_crash x s := mkmqtt (m_now s) (m_state s) (m_net s) (m_closing s) (m_slot s) (m_clean s) (m_keep s) (m_ping s) (m_op s) (m_min s) (m_max s) (m_cur s) (m_since s) (m_reconnect s) (m_count s) (m_waiting s) (m_next_ping s) (m_ping_task s) (m_ping_timeouts s) (m_connack_timeouts s) (m_byes s) (m_heap s) (m_table s) (m_tasks s) (m_ongoing s) (m_pending s) (m_last s) (m_next s) (m_tree s) (m_stamp s) (m_stats s) (m_held s) (m_over s) (m_out s) x.

Definition emit x s := set_out (x :: m_out s) s.
Definition crash s := set_crash true s.
Definition in_state (st : cstate) (s : mqtt) : bool := cstate_eqb (m_state s) st.
Definition sat_add (a b : N) : N := if two64 <=? a + b then two64 - 1 else a + b.

(** ** Requests *)
Definition is_uid (u : N) (r : req) : bool := q_uid r =? u.
Definition get (u : N) (s : mqtt) : option req := find (is_uid u) (m_heap s).
Definition upd (u : N) (f : req -> req) (s : mqtt) : mqtt := set_heap (map (fun r => if is_uid u r then f r else r) (m_heap s)) s.
(** retryable, client_channel_handler.c:965; noRetry is given for QoS 0 publishes and pings, client.c:3344, :3469 *)
Definition retryable (k : kind) : bool := match k with K_PUBLISH qos _ _ _ => negb (qos =? 0) | K_PING => false | _ => true end.
(** the sizes: client.c:2297-2339, :2508, :2802-2807, :3044, :3341, :3469 *)
Definition size_of (tree : list (bytes * N * N)) (k : kind) : N :=
  match k with
  | K_PUBLISH _ _ topic payload => 4 + len topic + len payload
  | K_SUBSCRIBE topics => fold_left (fun n e => n + (3 + len (fst e))) topics 4
  | K_RESUBSCRIBE => fold_left (fun n e => n + (3 + len (fst (fst e)))) tree 4
  | K_UNSUBSCRIBE f => 4 + len f
  | K_PING => 0
  end.
Definition sub64 (a b : N) : N := (a + two64 - b) mod two64.
Definition add64 (a b : N) : N := (a + b) mod two64.
(** aws_mqtt_connection_statistics_change_operation_statistic_state, client.c:3480-3537, to INCOMPLETE if [inc] and UNACKED if [un] *)
Definition change (u : N) (inc un : bool) (s : mqtt) : mqtt :=
  match get u s with
  | None => s
  | Some r =>
    if q_size r =? 0 then s else
    let a := m_stats s in
    let b := if Bool.eqb (q_incomplete r) inc then a
             else if inc then mkstats (add64 (n_incomplete a) 1) (add64 (n_incomplete_size a) (q_size r)) (n_unacked a) (n_unacked_size a)
             else mkstats (sub64 (n_incomplete a) 1) (sub64 (n_incomplete_size a) (q_size r)) (n_unacked a) (n_unacked_size a) in
    let c := if Bool.eqb (q_unacked r) un then b
             else if un then mkstats (n_incomplete b) (n_incomplete_size b) (add64 (n_unacked b) 1) (add64 (n_unacked_size b) (q_size r))
             else mkstats (n_incomplete b) (n_incomplete_size b) (sub64 (n_unacked b) 1) (sub64 (n_unacked_size b) (q_size r)) in
    upd u (fun r => with_incomplete inc (with_unacked un r)) (set_stats c s)
  end.
(** request->on_complete, which is NULL for a ping; that a ping is over is only noted *)
Definition tell (r : req) (e : why) (s : mqtt) : mqtt := match q_kind r with K_PING => emit (O_PING_OVER (q_uid r)) s | _ => emit (O_COMPLETE (q_uid r) (q_id r) e) s end.
(** aws_hash_table_remove(outstanding_requests_table) and aws_memory_pool_release *)
Definition drop (r : req) (s : mqtt) : mqtt :=
  set_heap (filter (fun x => negb (is_uid (q_uid r) x)) (m_heap s)) (set_table (filter (fun e => negb (fst e =? q_id r)) (m_table s)) s).
(** client_channel_handler.c:786-801, :833-848: the callback, the statistics, the table *)
Definition finished (r : req) (e : why) (s : mqtt) : mqtt := drop r (change (q_uid r) false false (tell r e s)).
(** client.c:362-383, :1851-1878: the callback and the table, but not the statistics *)
Definition cancelled (e : why) (u : N) (s : mqtt) : mqtt := match get u s with None => crash s | Some r => drop r (tell r e s) end.
(** the search for a free packet id, client_channel_handler.c:922-953. After [length table + 1] steps an id is found or all have been seen *)
Fixpoint search (fuel : nat) (table : list (N * N)) (start id : N) : option N :=
  let id' := if id =? 65535 then 1 else id + 1 in
  if negb (existsb (fun e => fst e =? id') table) then Some id' else if id' =? start then None else match fuel with O => None | S n => search n table start id' end.
(** mqtt_create_request, client_channel_handler.c:874-1011 *)
Definition create (k : kind) (wait : N) (s : mqtt) : mqtt :=
  if in_state DISCONNECTING s then emit (I_REFUSED k E_DISCONNECTING) s
  else if negb (retryable k) && negb (in_state CONNECTED s) then emit (I_REFUSED k E_NOT_CONNECTED) s
  else match search (length (m_table s)) (m_table s) (m_last s) (m_last s) with
       | None => emit (I_REFUSED k E_QUEUE_FULL) s
       | Some id =>
         let u := m_next s in
         let s1 := set_last id (set_next (u + 1) (set_table (m_table s ++ [(id, u)])
                   (set_heap (m_heap s ++ [mkreq u id k (size_of (m_tree s) k) false false None 0 false false 0 None wait]) s))) in
         let s2 := if in_state CONNECTED s then set_tasks (m_tasks s ++ [u]) s1 else set_pending (m_pending s ++ [u]) s1 in
         emit (I_MADE u id k wait) (change u true false s2)
       end.
(** aws_channel_shutdown: only the first call counts *)
Definition close (e : why) (s : mqtt) : mqtt := match m_closing s with None => emit (I_SHUTDOWN e) (set_closing (Some e) s) | Some _ => s end.

(** ** Sending *)
(** s_is_topic_shared_topic and s_get_normal_topic_from_shared_topic, client.c:173-209; None: "Incorrectly formatted shared topic". [filter_of "$share/G/F"] is F *)
Fixpoint after_slash (l : bytes) : option bytes := match l with [] => None | c :: m => if c =? 47 then match m with [] => None | _ => Some m end else after_slash m end.
Definition filter_of (f : bytes) : option bytes :=
  if bytes_eqb (firstn 7 f) [36; 115; 104; 97; 114; 101; 47] then match skipn 7 f with [] => None | _ :: l => after_slash l end else Some f.
(** aws_mqtt_topic_tree_transaction_insert and commit: a filter that is there already keeps its string *)
Definition plant (f : bytes) (qos : N) (s : mqtt) : mqtt :=
  if existsb (fun e => bytes_eqb (fst (fst e)) f) (m_tree s)
  then set_tree (map (fun e => if bytes_eqb (fst (fst e)) f then (f, qos, snd e) else e) (m_tree s)) s
  else set_stamp (m_stamp s + 1) (set_tree (m_tree s ++ [(f, qos, m_stamp s)]) s).
Fixpoint plant_all (topics : list (bytes * N)) (s : mqtt) : option mqtt :=
  match topics with
  | [] => Some s
  | (f, qos) :: l => match filter_of f with None => None | Some g => plant_all l (plant g qos s) end
  end.
Definition uproot (f : bytes) (s : mqtt) : mqtt := set_tree (filter (fun e => negb (bytes_eqb (fst (fst e)) f)) (m_tree s)) s.
(** s_schedule_timeout_task, client.c:131-164 *)
Definition arm (r : req) (s : mqtt) : mqtt :=
  if (q_wait r =? two64 - 1) || (q_wait r =? 0) then s else upd (q_uid r) (with_timer (Some (sat_add (m_now s) (q_wait r)))) s.
(** enum aws_mqtt_client_request_state, client_impl.h:66-70 *)
Inductive sent := R_ONGOING | R_COMPLETE | R_ERROR.
(** s_publish_send, client.c:3167-3258; [enc]: the packet could be encoded; [wr]: the channel took it *)
Definition publish_send (enc wr : bool) (r : req) (qos : N) (retain : bool) (topic payload : bytes) (s : mqtt) : mqtt * sent :=
  let id := if qos =? 0 then 0 else q_id r in
  if negb enc then (s, R_ERROR)
  else let s1 := emit (O_SEND (q_uid r) (PUBLISH id qos (q_sent r) retain topic payload) wr) s in
       if negb wr then (s1, if qos =? 0 then R_ERROR else R_ONGOING)
       else if qos =? 0 then (s1, R_COMPLETE) else (arm r s1, R_ONGOING).
(** s_subscribe_send, client.c:2059-2195 *)
Definition subscribe_send (enc wr : bool) (r : req) (topics : list (bytes * N)) (s : mqtt) : mqtt * sent :=
  match (if q_tree r then Some s else plant_all topics s) with
  | None => (s, R_ERROR)
  | Some s1 => if negb enc then (s, R_ERROR)
               else (upd (q_uid r) (with_tree true) (arm r (emit (O_SEND (q_uid r) (SUBSCRIBE (q_id r) topics) wr) s1)), R_ONGOING)
  end.
(** s_resubscribe_send, client.c:2611-2704. The topics of the packet are strings of the tree; they are those of the first time *)
Definition resubscribe_send (enc wr : bool) (r : req) (s : mqtt) : mqtt * sent :=
  match m_tree s with
  | [] => (upd (q_uid r) (with_topics 0) s, R_COMPLETE)
  | _ =>
    let subs := match q_subs r with Some l => l | None => m_tree s end in
    let s1 := upd (q_uid r) (with_subs (Some subs)) (upd (q_uid r) (with_topics (N.of_nat (length (m_tree s)))) s) in
    if negb (forallb (fun e => existsb (fun e' => snd e' =? snd e) (m_tree s)) subs) then (crash s1, R_ERROR)
    else if negb enc then (s1, R_ERROR)
    else (arm r (emit (O_SEND (q_uid r) (SUBSCRIBE (q_id r) (map fst subs)) wr) s1), R_ONGOING)
  end.
(** s_unsubscribe_send, client.c:2861-2981 *)
Definition unsubscribe_send (enc wr : bool) (r : req) (f : bytes) (s : mqtt) : mqtt * sent :=
  match (if q_tree r then Some s else option_map (fun g => uproot g s) (filter_of f)) with
  | None => (s, R_ERROR)
  | Some s1 => if negb enc then (s, R_ERROR)
               else if negb wr then (emit (O_SEND (q_uid r) (UNSUBSCRIBE (q_id r) f) false) s, R_ERROR)
               else (upd (q_uid r) (with_tree true) (arm r (emit (O_SEND (q_uid r) (UNSUBSCRIBE (q_id r) f) true) s1)), R_ONGOING)
  end.
(** s_pingreq_send, client.c:3416-3462 *)
Definition ping_send (enc wr : bool) (r : req) (s : mqtt) : mqtt * sent :=
  if negb enc then (s, R_ERROR)
  else let s1 := emit (O_SEND (q_uid r) PINGREQ wr) s in
       if negb wr then (s1, R_ERROR) else (set_ping_timeouts (m_ping_timeouts s ++ [add64 (m_now s) (m_ping s)]) (set_waiting true s1), R_COMPLETE).
Definition send (enc wr : bool) (r : req) (s : mqtt) : mqtt * sent :=
  match q_kind r with
  | K_PUBLISH qos retain topic payload => publish_send enc wr r qos retain topic payload s
  | K_SUBSCRIBE topics => subscribe_send enc wr r topics s
  | K_RESUBSCRIBE => resubscribe_send enc wr r s
  | K_UNSUBSCRIBE f => unsubscribe_send enc wr r f s
  | K_PING => ping_send enc wr r s
  end.
(** s_request_outgoing_task, client_channel_handler.c:750-872: the first scheduled one runs ... *)
Definition run_task (enc wr : bool) (s : mqtt) : mqtt :=
  match m_tasks s with
  | [] => s
  | u :: l =>
    let s0 := set_tasks l s in
    match get u s0 with
    | None => crash s0
    | Some r =>
      let (s1, res) := send enc wr r s0 in
      let s2 := upd u (fun r => with_at (m_now s) (with_sent true r)) s1 in
      match res with
      | R_ERROR => finished r E_SEND s2
      | R_COMPLETE => finished r OK s2
      | R_ONGOING => let s3 := change u true true s2 in set_ongoing (m_ongoing s3 ++ [u]) s3
      end
    end
  end.
(** ... or is cancelled, client_channel_handler.c:755-804 *)
Definition cancel_task (s : mqtt) (u : N) : mqtt :=
  match get u s with
  | None => crash s
  | Some r => if retryable (q_kind r) then let s1 := change u true false s in set_pending (m_pending s1 ++ [u]) s1 else finished r E_NOT_CONNECTED s
  end.

(** ** Completion *)
(** aws_add_u64_checked as used: nothing is stored if the sum is too large *)
Definition add_checked (a b : N) : N := if two64 <=? a + b then a else a + b.
Definition find_id (id : N) (s : mqtt) : option N := option_map snd (find (fun e => fst e =? id) (m_table s)).
Definition without (u : N) (l : list N) : list N := filter (fun x => negb (x =? u)) l.
(** mqtt_request_complete, client_channel_handler.c:1013-1068. A request whose outgoing task is scheduled is in no list, yet is removed from one and freed *)
Definition request_complete (e : why) (id : N) (s : mqtt) : mqtt :=
  match find_id id s with
  | None => s
  | Some u =>
    match get u s with
    | None => crash s
    | Some r =>
      if existsb (N.eqb u) (m_tasks s) then crash s
      else
        let s1 := change u false false s in
        let s2 := match e with OK => let t := add_checked (q_at r) (m_keep s1) in if m_next_ping s1 <? t then set_next_ping t s1 else s1 | _ => s1 end in
        tell r e (set_ongoing (without u (m_ongoing s2)) (set_pending (without u (m_pending s2)) (drop r s2)))
    end
  end.

(** ** Packets *)
(** s_update_next_ping_time and s_schedule_ping, client_channel_handler.c:28-33, :70-86; a task that is scheduled must not be initialised again *)
Definition update_next_ping (s : mqtt) : mqtt := set_next_ping (add_checked (m_now s) (m_keep s)) s.
Definition schedule_ping (s : mqtt) : mqtt := match m_ping_task s with Some _ => crash s | None => set_ping_task (Some (m_next_ping s)) s end.
(** s_packet_handler_connack, client_channel_handler.c:146-274 *)
Definition on_connack (session : bool) (code : N) (s : mqtt) : mqtt :=
  if in_state DISCONNECTING s || in_state DISCONNECTED s then s
  else
    let was_reconnecting := in_state RECONNECTING s in
    if code =? 0 then
      let s1 := set_since (m_now s) (set_count (m_count s + 1) (set_tasks (m_tasks s ++ m_pending s) (set_pending [] (set_state CONNECTED s)))) in
      let s2 := if was_reconnecting && (1 <? m_count s1) then emit (O_RESUMED session) s1
                else emit (O_CONNECTION_COMPLETE OK code session) (match m_reconnect s1 with None => set_reconnect (Some None) s1 | Some _ => s1 end) in
      schedule_ping (update_next_ping (emit (O_CONNECTION_SUCCESS session) s2))
    else close E_PROTOCOL (set_count (m_count s + 1) s).
(** a packet that answers one: client_channel_handler.c:334-349, :477-491, :516-530. If it cannot be sent the channel is shut down, :631 *)
Definition answer (p : packet) (wr : bool) (s : mqtt) : mqtt := let s1 := emit (O_WRITE p wr) s in if wr then s1 else close (E_OTHER 0) s1.
(** does a filter of the tree match, for aws_mqtt_topic_tree_publish: see TopicTree *)
Fixpoint levels_match (f t : list bytes) : bool :=
  match f, t with
  | [], [] => true
  | x :: f', y :: t' => if bytes_eqb x [35] then true else (bytes_eqb x [43] || bytes_eqb x y) && levels_match f' t'
  | _, _ => false
  end.
Definition tree_match (f t : bytes) : bool := levels_match (split 47 f) (split 47 t).
(** s_packet_handler_publish, client_channel_handler.c:276-352 *)
Definition on_publish (id qos : N) (dup retain : bool) (topic payload : bytes) (wr : bool) (s : mqtt) : mqtt :=
  let s1 := fold_left (fun s e => if tree_match (fst (fst e)) topic then emit (O_DELIVER (fst (fst e)) topic payload) s else s) (m_tree s) s in
  let s2 := emit (O_ANY_PUBLISH topic payload dup qos retain) s1 in
  if (qos =? 0) || (id =? 0) then s2 else answer (if qos =? 1 then PUBACK id else PUBREC id) wr s2.
(** s_packet_handler_suback, client_channel_handler.c:375-438. The request is taken to be a subscribe *)
Definition on_suback (id : N) (codes : list N) (s : mqtt) : mqtt :=
  match find_id id s with
  | None => s
  | Some u =>
    match get u s with
    | None => crash s
    | Some r =>
      match (match q_kind r with K_SUBSCRIBE topics => Some (N.of_nat (length topics)) | K_RESUBSCRIBE => Some (q_topics r) | _ => None end) with
      | None => crash s
      | Some n => if n =? N.of_nat (length codes) then request_complete OK id (emit (O_SUBACK u codes) s) else close E_PROTOCOL s
      end
    end
  end.
(** s_default_packet_handlers and s_validate_received_packet_type, client_channel_handler.c:115-144, :574-590; s_process_read_message, :603-635 *)
Definition on_packet (p : packet) (wr : bool) (s : mqtt) : mqtt :=
  let valid (k : mqtt -> mqtt) (s : mqtt) := if in_state CONNECTING s then close E_PROTOCOL s else k s in
  match p with
  | CONNACK session code => on_connack session code s
  | PUBLISH id qos dup retain topic payload => valid (on_publish id qos dup retain topic payload wr) s
  | PUBACK id | UNSUBACK id | PUBCOMP id => valid (request_complete OK id) s
  | SUBACK id codes => valid (on_suback id codes) s
  | PUBREC id => valid (answer (PUBREL id) wr) s
  | PUBREL id => valid (answer (PUBCOMP id) wr) s
  | PINGRESP => set_waiting false s
  | _ => close E_PROTOCOL s
  end.

(** ** Connecting and disconnecting *)
(** s_mqtt_client_connection_destroy_final, client.c:818-906, when the last reference is released in state DISCONNECTED (:914-948) *)
Definition destroy (s : mqtt) : mqtt :=
  let s1 := fold_left (fun s u => match get u s with None => crash s | Some r => tell r E_DESTROYED s end) (m_pending s) s in
  let s2 := match m_reconnect s1 with Some (Some _) => crash s1 | _ => s1 end in
  emit O_TERMINATED (set_over true (set_heap [] (set_table [] (set_pending [] (set_reconnect None s2))))).
(** aws_mqtt_client_connection_release of the client's own reference *)
Definition release (s : mqtt) : mqtt := if m_held s then s else destroy s.
(** aws_timestamp_convert from seconds saturates *)
Definition seconds (n : N) : N := if two64 <=? n * 1000000000 then two64 - 1 else n * 1000000000.
(** s_aws_mqtt_schedule_reconnect_task, client.c:73-85 *)
Definition schedule_reconnect (s : mqtt) : mqtt :=
  match m_reconnect s with None => crash s | Some _ => set_reconnect (Some (Some (add64 (m_now s) (seconds (m_cur s))))) s end.
(** client.c:440-454, :765-767 *)
Definition disconnected (s : mqtt) : mqtt := release (emit O_CLOSED (emit O_DISCONNECT (set_state DISCONNECTED s))).
(** s_mqtt_client_shutdown, client.c:249-469. [quit]: the user disconnects from within on_interrupted *)
Definition client_shutdown (e : why) (quit : bool) (s : mqtt) : mqtt :=
  let long := negb (m_since s =? 0) && (10000000000 <=? sub64 (m_now s) (m_since s)) in
  let s1 := set_since 0 (if in_state DISCONNECTING s || long then set_cur (m_min s) s else s) in
  let gone := if m_clean s then m_ongoing s ++ m_pending s else [] in
  let s2 := set_ongoing [] (set_pending (if m_clean s then [] else m_pending s ++ m_ongoing s) s1) in
  let s3 := set_closing None (set_net NO_CHANNEL (set_slot false (fold_left (fun s u => cancelled E_CLEAN_SESSION u s) gone s2))) in
  match m_state s with
  | RECONNECTING => schedule_reconnect s3
  | CONNECTED =>
    let s4 := emit (O_INTERRUPTED (match e with OK => E_HANGUP | _ => e end)) (set_state RECONNECTING s3) in
    if quit then disconnected (emit I_DISCONNECT s4) else schedule_reconnect s4
  | DISCONNECTING => disconnected s3
  | CONNECTING => let e' := match e with OK => E_HANGUP | _ => e end in
                  release (emit (O_CONNECTION_FAILURE e') (emit (O_CONNECTION_COMPLETE e' 0 false) (set_state DISCONNECTED s3)))
  | DISCONNECTED => s3
  end.
(** s_mqtt_disconnect_task, client_channel_handler.c:1075-1102: the part that also counts when it is cancelled *)
Definition bye (s : mqtt) : mqtt := if in_state DISCONNECTING s then set_reconnect None s else s.
(** the channel has shut down: s_shutdown (client_channel_handler.c:637-688) sends DISCONNECT if [graceful] and there is no error, the tasks are cancelled, and s_mqtt_client_shutdown is called *)
Definition on_down (e : why) (graceful wr quit : bool) (s : mqtt) : mqtt :=
  let s0 := match e with OK => if m_slot s && graceful then emit (O_WRITE DISCONNECT wr) s else s | _ => s end in
  let s1 := fold_left cancel_task (m_tasks s0) (set_tasks [] s0) in
  let s2 := set_heap (map (with_timer None) (m_heap s1)) (set_connack_timeouts [] (set_ping_timeouts [] (set_ping_task None s1))) in
  let s3 := set_byes 0 (if m_byes s2 =? 0 then s2 else bye s2) in
  client_shutdown e quit s3.
(** what the bootstrap reports to s_mqtt_client_init, or to s_on_websocket_setup (client.c:1500-1559): no channel; a channel for which the websocket handshake failed; a channel *)
Inductive outcome := FAILED (e : why) | REJECTED (e : why) | OPENED (enc wr : bool).
(** s_mqtt_client_init, client.c:503-720; [enc]: CONNECT could be encoded, [wr]: the channel took it *)
Definition on_setup (o : outcome) (quit : bool) (s : mqtt) : mqtt :=
  match o with
  | FAILED e => client_shutdown e quit s
  | REJECTED e => set_closing (Some e) (set_net UP s)
  | OPENED enc wr =>
    if in_state DISCONNECTING s then set_closing (Some OK) (set_net UP s)
    else
      let s1 := set_connack_timeouts [add64 (m_now s) (m_ping s)] (set_slot true (set_net UP s)) in
      let s2 := if enc then emit (O_WRITE (CONNECT (m_clean s) (m_keep s / 1000000000)) wr) s1 else s1 in
      if enc && wr then s2 else close E_SEND (emit (O_CONNECTION_FAILURE E_SEND) (emit (O_CONNECTION_COMPLETE E_SEND 0 false) s2))
  end.
(** s_attempt_reconnect, client.c:722-804; [ok]: s_mqtt_client_connect (:1913-1960) succeeds *)
Definition attempt_reconnect (ok : bool) (s : mqtt) : mqtt :=
  if in_state DISCONNECTING s then (if m_slot s then set_reconnect None s else disconnected (set_reconnect None s))
  else
    let s1 := set_cur (if m_max s / 2 <? m_cur s then m_max s else m_cur s * 2) s in
    if ok then emit (I_DIAL true) (set_net DIALLING (set_reconnect (Some None) s1)) else schedule_reconnect (emit (I_DIAL false) s1).
(** s_aws_mqtt_client_connection_311_connect, client.c:1701-1911. The fatal assertion at :1785 is a crash *)
Definition connect (clean : bool) (keep_s ping_ms op_ms : N) (ok : bool) (s : mqtt) : mqtt :=
  if negb (in_state DISCONNECTED s) then s
  else
    let s1 := set_count 0 (set_clean clean (emit (I_CONNECT clean) (set_state CONNECTING s))) in
    let keep := (if keep_s =? 0 then 1200 else keep_s) * 1000000000 in
    let ping := if ping_ms =? 0 then 3000000000 else ping_ms * 1000000 in
    let s2 := set_ping ping (set_op (if op_ms =? 0 then two64 - 1 else op_ms * 1000000) (set_keep keep s1)) in
    if keep <=? ping then crash s2
    else
      let s3 := if clean then fold_left (fun s u => cancelled E_CLEAN_SESSION u s) (m_pending s2) (set_pending [] s2) else s2 in
      if ok then emit (I_DIAL true) (set_net DIALLING s3) else set_state DISCONNECTED (emit (I_DIAL false) s3).
(** s_aws_mqtt_client_connection_311_disconnect, client.c:1983-2018, and mqtt_disconnect_impl, client_channel_handler.c:1104-1116 *)
Definition disconnect (s : mqtt) : mqtt :=
  if in_state CONNECTED s || in_state RECONNECTING s
  then let s1 := emit I_DISCONNECT (set_state DISCONNECTING s) in if m_slot s1 then set_byes (m_byes s1 + 1) s1 else s1
  else s.
(** s_aws_mqtt_client_connection_311_set_reconnect_timeout, client.c:1118-1159; :67-71 *)
Definition set_timeouts (lo hi : N) (s : mqtt) : mqtt := if in_state DISCONNECTED s || in_state CONNECTED s then set_cur lo (set_max hi (set_min lo s)) else s.
(** the checks of the API calls, client.c:2304-2313, :2453, :3023, :3303-3311 *)
Definition acceptable (k : kind) : bool :=
  match k with
  | K_PUBLISH qos _ topic _ => is_valid_topic topic && (qos <=? 2)
  | K_SUBSCRIBE topics => negb (N.of_nat (length topics) =? 0) && forallb (fun e => is_valid_topic_filter (fst e)) topics
  | K_UNSUBSCRIBE f => is_valid_topic_filter f
  | K_RESUBSCRIBE => true
  | K_PING => false
  end.

(** ** Steps *)
Inductive event :=
| EvTick (t : N) | EvRequest (k : kind) (wait : N) | EvConnect (clean : bool) (keep_s ping_ms op_ms : N) (ok : bool) | EvDisconnect | EvRelease | EvSetTimeouts (lo hi : N)
| EvSetup (o : outcome) (quit : bool) | EvRun (enc wr : bool) | EvBye | EvPacket (p : packet) (wr : bool) | EvPingTask | EvPingTimeout | EvConnackTimeout | EvTimeout (u : N)
| EvReconnect (ok : bool) | EvClose (e : why) | EvDown (graceful wr quit : bool).
Definition due (t : option N) (s : mqtt) : bool := match t with Some d => d <=? m_now s | None => false end.
Definition up (s : mqtt) : bool := net_eqb (m_net s) UP.
Definition enabled (ev : event) (s : mqtt) : bool :=
  match ev with
  | EvTick t => (m_now s <=? t) && (t <? two64)
  | EvRequest _ w => m_held s && (w <? two64)
  | EvConnect _ keep_s ping_ms op_ms _ => m_held s && (keep_s <=? 65535) && (ping_ms <? 4294967296) && (op_ms <? 4294967296)
  | EvDisconnect | EvRelease => m_held s
  | EvSetTimeouts lo hi => m_held s && (lo <? two64) && (hi <? two64)
  | EvSetup _ _ => net_eqb (m_net s) DIALLING
  | EvRun _ _ => up s && match m_tasks s with [] => false | _ => true end
  | EvBye => up s && negb (m_byes s =? 0)
  | EvPacket _ _ => up s && m_slot s
  | EvPingTask => up s && due (m_ping_task s) s
  | EvPingTimeout => up s && due (hd_error (m_ping_timeouts s)) s
  | EvConnackTimeout => up s && due (hd_error (m_connack_timeouts s)) s
  | EvTimeout u => up s && match get u s with Some r => due (q_timer r) s | None => false end
  | EvReconnect _ => match m_reconnect s with Some t => due t s | None => false end
  | EvClose _ => up s
  | EvDown _ _ _ => up s && match m_closing s with Some _ => true | None => false end
  end.
Definition handle (ev : event) (s : mqtt) : mqtt :=
  match ev with
  | EvTick t => emit (I_TICK t) (set_now t s)
  | EvRequest k wait => if acceptable k then create k wait s else emit (I_REFUSED k (E_OTHER 1)) s
  | EvConnect clean keep_s ping_ms op_ms ok => connect clean keep_s ping_ms op_ms ok s
  | EvDisconnect => disconnect s
  | EvRelease => let s1 := set_held false s in if in_state DISCONNECTED s then destroy s1 else s1
  | EvSetTimeouts lo hi => set_timeouts lo hi s
  | EvSetup o quit => on_setup o quit (match o with OPENED _ _ => emit I_UP s | FAILED e => emit (I_DOWN e) s | REJECTED _ => s end)
  | EvRun enc wr => run_task enc wr s
  | EvBye => let s1 := bye (set_byes (m_byes s - 1) s) in if m_slot s then close OK s1 else s1
  | EvPacket p wr => on_packet p wr (emit (I_PACKET p) s)
  | EvPingTask => (* s_on_time_to_ping, client_channel_handler.c:88-113 *)
    let s0 := set_ping_task None s in
    schedule_ping (if m_next_ping s0 <=? m_now s0 then create K_PING 0 (update_next_ping s0) else s0)
  | EvPingTimeout => (* s_pingresp_received_timeout, client.c:3400-3414 *)
    let s1 := set_ping_timeouts (tl (m_ping_timeouts s)) s in if m_waiting s then close E_TIMEOUT (set_waiting false s1) else s1
  | EvConnackTimeout => (* s_connack_received_timeout, client.c:478-497 *)
    let s1 := set_connack_timeouts (tl (m_connack_timeouts s)) s in
    if in_state CONNECTING s || in_state RECONNECTING s then close E_TIMEOUT s1 else s1
  | EvTimeout u => (* s_request_timeout, client.c:106-129 *)
    match get u s with Some r => request_complete E_TIMEOUT (q_id r) s | None => s end
  | EvReconnect ok => attempt_reconnect ok s
  | EvClose e => close e s
  | EvDown graceful wr quit => match m_closing s with Some e => on_down e graceful wr quit (emit (I_DOWN e) s) | None => s end
  end.
Definition step (s : mqtt) (ev : event) : mqtt := if m_crash s || m_over s then s else if enabled ev s then handle ev s else s.
(** aws_mqtt_client_connection_new, client.c:3699-3825: back-off from 1 to 128 seconds *)
Definition init : mqtt :=
  mkmqtt 0 DISCONNECTED NO_CHANNEL None false false 0 0 0 1 128 1 0 None 0 false 0 None [] [] 0 [] [] [] [] [] 0 0 [] 0 (mkstats 0 0 0 0) true false [] false.
Definition history (evs : list event) : mqtt := fold_left step evs init.
