(** The state of the MQTT5 client (source/v5/mqtt5_client.c, include/aws/mqtt/private/v5/mqtt5_client_impl.h) and what can be observed of
    it. Record setters are written out once here; the code itself is in Client5_Model.v. *)
From Verif Require Import Base Mqtt5_Views TopicAlias_Model Encoder5_Model Decoder5_Model RateLimiter_Model Negotiated_Model.

(** enum aws_mqtt5_client_state, mqtt5_client_impl.h *)
Inductive cstate := STOPPED | CONNECTING | MQTT_CONNECT | CONNECTED | CLEAN_DISCONNECT | CHANNEL_SHUTDOWN | PENDING_RECONNECT | TERMINATED.
(** the values s_is_valid_desired_state allows, mqtt5_client.c:2241-2251 *)
Inductive dstate := D_STOPPED | D_CONNECTED | D_TERMINATED.
(** enum aws_mqtt5_lifecycle_state *)
Inductive lstate := LS_NONE | LS_CONNECTING | LS_CONNECTED.
(** the environment: no connection, an attempt whose setup callback is due, a channel whose shutdown callback is due *)
Inductive chstate := CH_NONE | CH_ATTEMPT | CH_UP.

(** Error codes the client reports (include/aws/mqtt/mqtt.h); [K_ENV n] stands for a code handed in by the socket, TLS or channel layers. *)
Inductive code :=
| K_SUCCESS | K_UNKNOWN | K_USER_REQUESTED_STOP | K_UNEXPECTED_HANGUP | K_CONNACK_TIMEOUT | K_PING_RESPONSE_TIMEOUT | K_DISCONNECT_RECEIVED
| K_DECODE_PROTOCOL_ERROR | K_CONNECTION_REFUSED | K_CANCELLED_FOR_CLEAN_SESSION | K_RESET_FOR_ADAPTER | K_OFFLINE_QUEUE_POLICY | K_TIMEOUT
| K_CLIENT_TERMINATED | K_VALIDATION | K_PROCESSING_FAILURE | K_ENCODE_FAILURE | K_CONNECT_OPTIONS | K_ENV (n : N).
(** Failed AWS_FATAL_ASSERTs (file mqtt5_client.c unless said otherwise): 358 and 368-369 (lifecycle event), 3657 (receive maximum),
    3422 (packet id 0 at send), 819, 1205-1206, 1281, 1295, 1302-1304 (state transitions), 1734 (CONNACK), 3623 (flow control reset),
    rate_limiters.c:156-157, mqtt5_encoder.c:816, 3708 (empty packet); [CR_POINTER]: the unacked table or the timeout queue refers
    to an operation that is not in the unacked list (never in the code as written: proved). *)
Inductive crash_reason :=
| CR_LIFECYCLE | CR_RECEIVE_MAXIMUM | CR_PACKET_ID | CR_STATE | CR_CONNACK | CR_FLOW_RESET | CR_RATE_LIMITER | CR_ENCODER | CR_SIZE | CR_POINTER.

(** Who asked for an operation: a user's publish / subscribe / unsubscribe / stop; the client; a manual acknowledgement. *)
Inductive owner := BY_USER | BY_CLIENT | BY_ACK (control_id : N).
(** struct aws_mqtt5_operation: [op_uid] is the identity of the object; the packet view it points to; statistic_state_flags as two
    booleans; packet_size; the ack timeout override of the options; ack_timeout_timepoint_ns *)
Record op := mkop {
  op_uid : N; op_owner : owner; op_packet : packet5; op_inc : bool; op_una : bool; op_size : N; op_override : N; op_deadline : N }.
Definition op_new (u : N) (w : owner) (p : packet5) (override : N) : op := mkop u w p false false 0 override 0.
Definition set_packet (p : packet5) (o : op) : op :=
  mkop (op_uid o) (op_owner o) p (op_inc o) (op_una o) (op_size o) (op_override o) (op_deadline o).
Definition set_stat (inc una : bool) (size : N) (o : op) : op :=
  mkop (op_uid o) (op_owner o) (op_packet o) inc una size (op_override o) (op_deadline o).
Definition set_deadline (d : N) (o : op) : op :=
  mkop (op_uid o) (op_owner o) (op_packet o) (op_inc o) (op_una o) (op_size o) (op_override o) d.

(** lifecycle events, include/aws/mqtt/v5/mqtt5_client.h: enum aws_mqtt5_client_lifecycle_event_type with the data of the event *)
Inductive life_event :=
| ATTEMPTING_CONNECT
| CONNECTION_SUCCESS (settings : negotiated) (v : connack)
| CONNECTION_FAILURE (e : code) (v : option connack)
| DISCONNECTION (e : code) (v : option disconnect)
| STOPPED_EVENT.
(** enum aws_mqtt5_manual_publish_acknowledgement_result for acknowledgements that do not become an operation *)
Inductive ack_result := MPAR_CANCELLED | MPAR_INVALID.

(** The trace. What the client does: a lifecycle event; the completion of an operation with the code and the packet its callback gets (for
    operations of the client itself and for those without callback: nothing is called); an operation dropped without any completion; the
    answer to a manual acknowledgement; a request for a connection; a call of channel_shutdown_fn; an io message written; a publish
    delivered to the user, with the control id if the callback acquired the acknowledgement; the end of the client.
    [O_SENT] marks the operation whose last byte has just been put into the io message being filled.
    What happens to the client: an event, with the clock it reads ([I_TICK]); a packet decoded; a user's operation accepted; a manual
    acknowledgement asked for. *)
Inductive out :=
| O_LIFE (e : life_event)
| O_DONE (o : op) (e : code) (ack : option packet5)
| O_LOST (o : op)
| O_ACK_RESULT (control_id : N) (r : ack_result)
| O_CONNECT
| O_SHUTDOWN (e : code)
| O_WRITE (b : bytes)
| O_SENT (o : op)
| O_PUBLISH (v : publish) (control : option N)
| O_TERMINATED
| I_PACKET (p : packet5)
| I_SUBMIT (o : op)
| I_ACK (control_id : N)
| I_TICK (now : N).

(** state machine fields: desired_state, current_state, lifecycle_state, slot, clean_disconnect_error_code,
    should_reset_connection, has_connected_successfully, in_service, next_service_task_run_time (mqtt5_client_impl.h). [chan] is the
    environment's side: whether a connection attempt or a channel is alive *)
Record ctl := mkctl { ct_desired : dstate; ct_current : cstate; ct_life : lstate; ct_slot : bool; ct_chan : chstate; ct_clean_err : code; ct_should_reset : bool; ct_has_conn : bool; ct_in_service : bool; ct_run_at : N }.
(** struct aws_mqtt5_client_operational_state: queued_operations, current_operation, write_completion_operations,
    unacked_operations, unacked_operations_table (packet id -> operation), operations_by_ack_timeout (deadline, operation),
    pending_write_completion, next_mqtt_packet_id. [outstanding]: the channel still owes a write completion; [uid]: next operation identity *)
Record ops := mkops { os_queued : list op; os_curop : option op; os_wc : list op; os_unacked : list op; os_table : list (N * N); os_pq : list (N * N); os_pending : bool; os_next_id : N; os_outstanding : bool; os_uid : N }.
(** manual_pub_ack_packet_id_table (packet id -> control id), manual_pub_ack_control_id_table (control id -> packet id),
    manual_pub_ack_cancelled_control_id_table, next_mqtt5_pub_ack_control_id *)
Record man := mkman { mn_mp : list (N * N); mn_mc : list (N * N); mn_mx : list N; mn_next_ctl : N }.
(** struct aws_mqtt5_client_flow_control_state: unacked_publish_token_count, publish_throttle, throughput_throttle *)
Record flow := mkflow { fl_tokens : N; fl_pub_rl : rl_state; fl_thr_rl : rl_state }.
(** next_ping_time, next_ping_timeout_time, next_mqtt_connect_packet_timeout_time, next_reconnect_time_ns,
    next_reconnect_delay_reset_time_ns, reconnect_count, current_reconnect_delay_ms *)
Record tim := mktim { tm_ping : N; tm_ping_to : N; tm_connack_to : N; tm_reconnect_at : N; tm_reset_at : N; tm_recount : N; tm_delay : N }.
(** struct aws_mqtt5_client_operation_statistics_impl *)
Record sta := mksta { st_inc_n : N; st_inc_b : N; st_una_n : N; st_una_b : N }.
(** struct aws_mqtt5_client, mqtt5_client_impl.h; [c_crash]: a failed AWS_FATAL_ASSERT, after which nothing the model computes is
    meaningful; [c_out]: what was observed so far, newest first *)
Record client := mkclient { c_ctl : ctl; c_ops : ops; c_man : man; c_flow : flow; c_tim : tim; c_sta : sta; c_neg : negotiated; c_enc : encoder; c_dec : decoder5; c_alias : in_state; c_crash : option crash_reason; c_out : list out }.
Definition set_c_ctl (x : ctl) (s : client) : client := mkclient x (c_ops s) (c_man s) (c_flow s) (c_tim s) (c_sta s) (c_neg s) (c_enc s) (c_dec s) (c_alias s) (c_crash s) (c_out s).
Definition set_c_ops (x : ops) (s : client) : client := mkclient (c_ctl s) x (c_man s) (c_flow s) (c_tim s) (c_sta s) (c_neg s) (c_enc s) (c_dec s) (c_alias s) (c_crash s) (c_out s).
Definition set_c_man (x : man) (s : client) : client := mkclient (c_ctl s) (c_ops s) x (c_flow s) (c_tim s) (c_sta s) (c_neg s) (c_enc s) (c_dec s) (c_alias s) (c_crash s) (c_out s).
Definition set_c_flow (x : flow) (s : client) : client := mkclient (c_ctl s) (c_ops s) (c_man s) x (c_tim s) (c_sta s) (c_neg s) (c_enc s) (c_dec s) (c_alias s) (c_crash s) (c_out s).
Definition set_c_tim (x : tim) (s : client) : client := mkclient (c_ctl s) (c_ops s) (c_man s) (c_flow s) x (c_sta s) (c_neg s) (c_enc s) (c_dec s) (c_alias s) (c_crash s) (c_out s).
Definition set_c_sta (x : sta) (s : client) : client := mkclient (c_ctl s) (c_ops s) (c_man s) (c_flow s) (c_tim s) x (c_neg s) (c_enc s) (c_dec s) (c_alias s) (c_crash s) (c_out s).
Definition set_c_neg (x : negotiated) (s : client) : client := mkclient (c_ctl s) (c_ops s) (c_man s) (c_flow s) (c_tim s) (c_sta s) x (c_enc s) (c_dec s) (c_alias s) (c_crash s) (c_out s).
Definition set_c_enc (x : encoder) (s : client) : client := mkclient (c_ctl s) (c_ops s) (c_man s) (c_flow s) (c_tim s) (c_sta s) (c_neg s) x (c_dec s) (c_alias s) (c_crash s) (c_out s).
Definition set_c_dec (x : decoder5) (s : client) : client := mkclient (c_ctl s) (c_ops s) (c_man s) (c_flow s) (c_tim s) (c_sta s) (c_neg s) (c_enc s) x (c_alias s) (c_crash s) (c_out s).
Definition set_c_alias (x : in_state) (s : client) : client := mkclient (c_ctl s) (c_ops s) (c_man s) (c_flow s) (c_tim s) (c_sta s) (c_neg s) (c_enc s) (c_dec s) x (c_crash s) (c_out s).
Definition set_c_crash (x : option crash_reason) (s : client) : client := mkclient (c_ctl s) (c_ops s) (c_man s) (c_flow s) (c_tim s) (c_sta s) (c_neg s) (c_enc s) (c_dec s) (c_alias s) x (c_out s).
Definition set_c_out (x : list out) (s : client) : client := mkclient (c_ctl s) (c_ops s) (c_man s) (c_flow s) (c_tim s) (c_sta s) (c_neg s) (c_enc s) (c_dec s) (c_alias s) (c_crash s) x.
Definition desired (s : client) : dstate := ct_desired (c_ctl s).
Definition set_desired (x : dstate) (s : client) : client := set_c_ctl (mkctl x (ct_current (c_ctl s)) (ct_life (c_ctl s)) (ct_slot (c_ctl s)) (ct_chan (c_ctl s)) (ct_clean_err (c_ctl s)) (ct_should_reset (c_ctl s)) (ct_has_conn (c_ctl s)) (ct_in_service (c_ctl s)) (ct_run_at (c_ctl s))) s.
Definition current (s : client) : cstate := ct_current (c_ctl s).
Definition set_current (x : cstate) (s : client) : client := set_c_ctl (mkctl (ct_desired (c_ctl s)) x (ct_life (c_ctl s)) (ct_slot (c_ctl s)) (ct_chan (c_ctl s)) (ct_clean_err (c_ctl s)) (ct_should_reset (c_ctl s)) (ct_has_conn (c_ctl s)) (ct_in_service (c_ctl s)) (ct_run_at (c_ctl s))) s.
Definition life (s : client) : lstate := ct_life (c_ctl s).
Definition set_life (x : lstate) (s : client) : client := set_c_ctl (mkctl (ct_desired (c_ctl s)) (ct_current (c_ctl s)) x (ct_slot (c_ctl s)) (ct_chan (c_ctl s)) (ct_clean_err (c_ctl s)) (ct_should_reset (c_ctl s)) (ct_has_conn (c_ctl s)) (ct_in_service (c_ctl s)) (ct_run_at (c_ctl s))) s.
Definition slot (s : client) : bool := ct_slot (c_ctl s).
Definition set_slot (x : bool) (s : client) : client := set_c_ctl (mkctl (ct_desired (c_ctl s)) (ct_current (c_ctl s)) (ct_life (c_ctl s)) x (ct_chan (c_ctl s)) (ct_clean_err (c_ctl s)) (ct_should_reset (c_ctl s)) (ct_has_conn (c_ctl s)) (ct_in_service (c_ctl s)) (ct_run_at (c_ctl s))) s.
Definition chan (s : client) : chstate := ct_chan (c_ctl s).
Definition set_chan (x : chstate) (s : client) : client := set_c_ctl (mkctl (ct_desired (c_ctl s)) (ct_current (c_ctl s)) (ct_life (c_ctl s)) (ct_slot (c_ctl s)) x (ct_clean_err (c_ctl s)) (ct_should_reset (c_ctl s)) (ct_has_conn (c_ctl s)) (ct_in_service (c_ctl s)) (ct_run_at (c_ctl s))) s.
Definition clean_err (s : client) : code := ct_clean_err (c_ctl s).
Definition set_clean_err (x : code) (s : client) : client := set_c_ctl (mkctl (ct_desired (c_ctl s)) (ct_current (c_ctl s)) (ct_life (c_ctl s)) (ct_slot (c_ctl s)) (ct_chan (c_ctl s)) x (ct_should_reset (c_ctl s)) (ct_has_conn (c_ctl s)) (ct_in_service (c_ctl s)) (ct_run_at (c_ctl s))) s.
Definition should_reset (s : client) : bool := ct_should_reset (c_ctl s).
Definition set_should_reset (x : bool) (s : client) : client := set_c_ctl (mkctl (ct_desired (c_ctl s)) (ct_current (c_ctl s)) (ct_life (c_ctl s)) (ct_slot (c_ctl s)) (ct_chan (c_ctl s)) (ct_clean_err (c_ctl s)) x (ct_has_conn (c_ctl s)) (ct_in_service (c_ctl s)) (ct_run_at (c_ctl s))) s.
Definition has_conn (s : client) : bool := ct_has_conn (c_ctl s).
Definition set_has_conn (x : bool) (s : client) : client := set_c_ctl (mkctl (ct_desired (c_ctl s)) (ct_current (c_ctl s)) (ct_life (c_ctl s)) (ct_slot (c_ctl s)) (ct_chan (c_ctl s)) (ct_clean_err (c_ctl s)) (ct_should_reset (c_ctl s)) x (ct_in_service (c_ctl s)) (ct_run_at (c_ctl s))) s.
Definition in_service (s : client) : bool := ct_in_service (c_ctl s).
Definition set_in_service (x : bool) (s : client) : client := set_c_ctl (mkctl (ct_desired (c_ctl s)) (ct_current (c_ctl s)) (ct_life (c_ctl s)) (ct_slot (c_ctl s)) (ct_chan (c_ctl s)) (ct_clean_err (c_ctl s)) (ct_should_reset (c_ctl s)) (ct_has_conn (c_ctl s)) x (ct_run_at (c_ctl s))) s.
Definition run_at (s : client) : N := ct_run_at (c_ctl s).
Definition set_run_at (x : N) (s : client) : client := set_c_ctl (mkctl (ct_desired (c_ctl s)) (ct_current (c_ctl s)) (ct_life (c_ctl s)) (ct_slot (c_ctl s)) (ct_chan (c_ctl s)) (ct_clean_err (c_ctl s)) (ct_should_reset (c_ctl s)) (ct_has_conn (c_ctl s)) (ct_in_service (c_ctl s)) x) s.
Definition queued (s : client) : list op := os_queued (c_ops s).
Definition set_queued (x : list op) (s : client) : client := set_c_ops (mkops x (os_curop (c_ops s)) (os_wc (c_ops s)) (os_unacked (c_ops s)) (os_table (c_ops s)) (os_pq (c_ops s)) (os_pending (c_ops s)) (os_next_id (c_ops s)) (os_outstanding (c_ops s)) (os_uid (c_ops s))) s.
Definition curop (s : client) : option op := os_curop (c_ops s).
Definition set_curop (x : option op) (s : client) : client := set_c_ops (mkops (os_queued (c_ops s)) x (os_wc (c_ops s)) (os_unacked (c_ops s)) (os_table (c_ops s)) (os_pq (c_ops s)) (os_pending (c_ops s)) (os_next_id (c_ops s)) (os_outstanding (c_ops s)) (os_uid (c_ops s))) s.
Definition wc (s : client) : list op := os_wc (c_ops s).
Definition set_wc (x : list op) (s : client) : client := set_c_ops (mkops (os_queued (c_ops s)) (os_curop (c_ops s)) x (os_unacked (c_ops s)) (os_table (c_ops s)) (os_pq (c_ops s)) (os_pending (c_ops s)) (os_next_id (c_ops s)) (os_outstanding (c_ops s)) (os_uid (c_ops s))) s.
Definition unacked (s : client) : list op := os_unacked (c_ops s).
Definition set_unacked (x : list op) (s : client) : client := set_c_ops (mkops (os_queued (c_ops s)) (os_curop (c_ops s)) (os_wc (c_ops s)) x (os_table (c_ops s)) (os_pq (c_ops s)) (os_pending (c_ops s)) (os_next_id (c_ops s)) (os_outstanding (c_ops s)) (os_uid (c_ops s))) s.
Definition table (s : client) : list (N * N) := os_table (c_ops s).
Definition set_table (x : list (N * N)) (s : client) : client := set_c_ops (mkops (os_queued (c_ops s)) (os_curop (c_ops s)) (os_wc (c_ops s)) (os_unacked (c_ops s)) x (os_pq (c_ops s)) (os_pending (c_ops s)) (os_next_id (c_ops s)) (os_outstanding (c_ops s)) (os_uid (c_ops s))) s.
Definition pq (s : client) : list (N * N) := os_pq (c_ops s).
Definition set_pq (x : list (N * N)) (s : client) : client := set_c_ops (mkops (os_queued (c_ops s)) (os_curop (c_ops s)) (os_wc (c_ops s)) (os_unacked (c_ops s)) (os_table (c_ops s)) x (os_pending (c_ops s)) (os_next_id (c_ops s)) (os_outstanding (c_ops s)) (os_uid (c_ops s))) s.
Definition pending (s : client) : bool := os_pending (c_ops s).
Definition set_pending (x : bool) (s : client) : client := set_c_ops (mkops (os_queued (c_ops s)) (os_curop (c_ops s)) (os_wc (c_ops s)) (os_unacked (c_ops s)) (os_table (c_ops s)) (os_pq (c_ops s)) x (os_next_id (c_ops s)) (os_outstanding (c_ops s)) (os_uid (c_ops s))) s.
Definition next_id (s : client) : N := os_next_id (c_ops s).
Definition set_next_id (x : N) (s : client) : client := set_c_ops (mkops (os_queued (c_ops s)) (os_curop (c_ops s)) (os_wc (c_ops s)) (os_unacked (c_ops s)) (os_table (c_ops s)) (os_pq (c_ops s)) (os_pending (c_ops s)) x (os_outstanding (c_ops s)) (os_uid (c_ops s))) s.
Definition outstanding (s : client) : bool := os_outstanding (c_ops s).
Definition set_outstanding (x : bool) (s : client) : client := set_c_ops (mkops (os_queued (c_ops s)) (os_curop (c_ops s)) (os_wc (c_ops s)) (os_unacked (c_ops s)) (os_table (c_ops s)) (os_pq (c_ops s)) (os_pending (c_ops s)) (os_next_id (c_ops s)) x (os_uid (c_ops s))) s.
Definition uid (s : client) : N := os_uid (c_ops s).
Definition set_uid (x : N) (s : client) : client := set_c_ops (mkops (os_queued (c_ops s)) (os_curop (c_ops s)) (os_wc (c_ops s)) (os_unacked (c_ops s)) (os_table (c_ops s)) (os_pq (c_ops s)) (os_pending (c_ops s)) (os_next_id (c_ops s)) (os_outstanding (c_ops s)) x) s.
Definition mp (s : client) : list (N * N) := mn_mp (c_man s).
Definition set_mp (x : list (N * N)) (s : client) : client := set_c_man (mkman x (mn_mc (c_man s)) (mn_mx (c_man s)) (mn_next_ctl (c_man s))) s.
Definition mc (s : client) : list (N * N) := mn_mc (c_man s).
Definition set_mc (x : list (N * N)) (s : client) : client := set_c_man (mkman (mn_mp (c_man s)) x (mn_mx (c_man s)) (mn_next_ctl (c_man s))) s.
Definition mx (s : client) : list N := mn_mx (c_man s).
Definition set_mx (x : list N) (s : client) : client := set_c_man (mkman (mn_mp (c_man s)) (mn_mc (c_man s)) x (mn_next_ctl (c_man s))) s.
Definition next_ctl (s : client) : N := mn_next_ctl (c_man s).
Definition set_next_ctl (x : N) (s : client) : client := set_c_man (mkman (mn_mp (c_man s)) (mn_mc (c_man s)) (mn_mx (c_man s)) x) s.
Definition tokens (s : client) : N := fl_tokens (c_flow s).
Definition set_tokens (x : N) (s : client) : client := set_c_flow (mkflow x (fl_pub_rl (c_flow s)) (fl_thr_rl (c_flow s))) s.
Definition pub_rl (s : client) : rl_state := fl_pub_rl (c_flow s).
Definition set_pub_rl (x : rl_state) (s : client) : client := set_c_flow (mkflow (fl_tokens (c_flow s)) x (fl_thr_rl (c_flow s))) s.
Definition thr_rl (s : client) : rl_state := fl_thr_rl (c_flow s).
Definition set_thr_rl (x : rl_state) (s : client) : client := set_c_flow (mkflow (fl_tokens (c_flow s)) (fl_pub_rl (c_flow s)) x) s.
Definition ping (s : client) : N := tm_ping (c_tim s).
Definition set_ping (x : N) (s : client) : client := set_c_tim (mktim x (tm_ping_to (c_tim s)) (tm_connack_to (c_tim s)) (tm_reconnect_at (c_tim s)) (tm_reset_at (c_tim s)) (tm_recount (c_tim s)) (tm_delay (c_tim s))) s.
Definition ping_to (s : client) : N := tm_ping_to (c_tim s).
Definition set_ping_to (x : N) (s : client) : client := set_c_tim (mktim (tm_ping (c_tim s)) x (tm_connack_to (c_tim s)) (tm_reconnect_at (c_tim s)) (tm_reset_at (c_tim s)) (tm_recount (c_tim s)) (tm_delay (c_tim s))) s.
Definition connack_to (s : client) : N := tm_connack_to (c_tim s).
Definition set_connack_to (x : N) (s : client) : client := set_c_tim (mktim (tm_ping (c_tim s)) (tm_ping_to (c_tim s)) x (tm_reconnect_at (c_tim s)) (tm_reset_at (c_tim s)) (tm_recount (c_tim s)) (tm_delay (c_tim s))) s.
Definition reconnect_at (s : client) : N := tm_reconnect_at (c_tim s).
Definition set_reconnect_at (x : N) (s : client) : client := set_c_tim (mktim (tm_ping (c_tim s)) (tm_ping_to (c_tim s)) (tm_connack_to (c_tim s)) x (tm_reset_at (c_tim s)) (tm_recount (c_tim s)) (tm_delay (c_tim s))) s.
Definition reset_at (s : client) : N := tm_reset_at (c_tim s).
Definition set_reset_at (x : N) (s : client) : client := set_c_tim (mktim (tm_ping (c_tim s)) (tm_ping_to (c_tim s)) (tm_connack_to (c_tim s)) (tm_reconnect_at (c_tim s)) x (tm_recount (c_tim s)) (tm_delay (c_tim s))) s.
Definition recount (s : client) : N := tm_recount (c_tim s).
Definition set_recount (x : N) (s : client) : client := set_c_tim (mktim (tm_ping (c_tim s)) (tm_ping_to (c_tim s)) (tm_connack_to (c_tim s)) (tm_reconnect_at (c_tim s)) (tm_reset_at (c_tim s)) x (tm_delay (c_tim s))) s.
Definition delay (s : client) : N := tm_delay (c_tim s).
Definition set_delay (x : N) (s : client) : client := set_c_tim (mktim (tm_ping (c_tim s)) (tm_ping_to (c_tim s)) (tm_connack_to (c_tim s)) (tm_reconnect_at (c_tim s)) (tm_reset_at (c_tim s)) (tm_recount (c_tim s)) x) s.
Definition inc_n (s : client) : N := st_inc_n (c_sta s).
Definition set_inc_n (x : N) (s : client) : client := set_c_sta (mksta x (st_inc_b (c_sta s)) (st_una_n (c_sta s)) (st_una_b (c_sta s))) s.
Definition inc_b (s : client) : N := st_inc_b (c_sta s).
Definition set_inc_b (x : N) (s : client) : client := set_c_sta (mksta (st_inc_n (c_sta s)) x (st_una_n (c_sta s)) (st_una_b (c_sta s))) s.
Definition una_n (s : client) : N := st_una_n (c_sta s).
Definition set_una_n (x : N) (s : client) : client := set_c_sta (mksta (st_inc_n (c_sta s)) (st_inc_b (c_sta s)) x (st_una_b (c_sta s))) s.
Definition una_b (s : client) : N := st_una_b (c_sta s).
Definition set_una_b (x : N) (s : client) : client := set_c_sta (mksta (st_inc_n (c_sta s)) (st_inc_b (c_sta s)) (st_una_n (c_sta s)) x) s.
