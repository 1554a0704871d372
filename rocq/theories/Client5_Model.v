(** Model of source/v5/mqtt5_client.c: the client's state machine, operation queues, flow control, timers and event handlers. Line numbers
    are in that file unless another file is named.

    Everything runs on the client's event loop, so one event handler runs to completion before the next. Simplifications, throughout:
    - a handler reads the clock once ([e_now]); the C code reads it again for each timer it sets;
    - allocation does not fail;
    - channel_shutdown_fn is asynchronous, as with real channels: the shutdown callback is a later event;
    - callbacks do not re-enter the client: API calls made in them are tasks, i.e. later events; the one exception,
      aws_mqtt5_client_acquire_publish_acknowledgement inside the publish callback, is the [e_acquire] oracle;
    - callback_manager listeners that would swallow a publish are left out; the IoT metrics username is left out;
    - the websocket handshake is folded into the connection attempt: its failures are setup failures. *)
From Verif Require Import Base Mqtt5_Views TopicAlias_Model Encoder5_Model Decoder5_Model RateLimiter_Model Validate5_Model
  Negotiated_Model Client5_State.

(** struct aws_mqtt5_client_options_storage after defaults (mqtt5_options_storage.c:3842-3878, mqtt5_utils.c:280-381) *)
Inductive queue_behavior := FAIL_NON_QOS1_PUBLISH | FAIL_QOS0_PUBLISH | FAIL_ALL.
Inductive session_behavior := SESSION_CLEAN | REJOIN_POST_SUCCESS | REJOIN_ALWAYS.
Inductive jitter := JITTER_NONE | JITTER_FULL | JITTER_DECORRELATED.
Record config := mkconfig {
  cf_connect : connect; cf_queue : queue_behavior; cf_session : session_behavior; cf_flow : bool; cf_ping_timeout_ms : N;
  cf_connack_timeout_ms : N; cf_ack_timeout_s : N; cf_min_delay_ms : N; cf_max_delay_ms : N; cf_jitter : jitter;
  cf_min_connected_ms : N; cf_alias_out : behavior; cf_alias_in : option N }.

(** What the environment answers during one handler: the clock; aws_device_random_u64 (None: it failed); whether starting a connection
    fails; whether installing the channel handler fails; the capacity of the io message (None: none to be had); whether sending it works;
    whether the publish callback acquires the acknowledgement, and what comparing a SUBACK/UNSUBACK with an operation of another type
    yields (lines 3520-3531 read the operation's view at the wrong type), both by position in the trace. *)
Record env := mkenv {
  e_now : N; e_rnd : option N; e_connect : option N; e_slot : option N; e_msg : option N; e_send : bool;
  e_acquire : nat -> bool; e_confused : nat -> bool }.

Definition cstate_eqb (a b : cstate) : bool :=
  match a, b with
  | STOPPED, STOPPED | CONNECTING, CONNECTING | MQTT_CONNECT, MQTT_CONNECT | CONNECTED, CONNECTED | CLEAN_DISCONNECT, CLEAN_DISCONNECT
  | CHANNEL_SHUTDOWN, CHANNEL_SHUTDOWN | PENDING_RECONNECT, PENDING_RECONNECT | TERMINATED, TERMINATED => true
  | _, _ => false
  end.
Definition dstate_eqb (a b : dstate) : bool :=
  match a, b with D_STOPPED, D_STOPPED | D_CONNECTED, D_CONNECTED | D_TERMINATED, D_TERMINATED => true | _, _ => false end.
Definition wants_connection (s : client) : bool := dstate_eqb (desired s) D_CONNECTED.

(** ** Packets as operations *)
Definition is_connect (p : packet5) : bool := match p with P_CONNECT _ => true | _ => false end.
Definition is_disconnect (p : packet5) : bool := match p with P_DISCONNECT _ => true | _ => false end.
Definition is_publish (p : packet5) : bool := match p with P_PUBLISH _ => true | _ => false end.
Definition is_pingreq (p : packet5) : bool := match p with P_PINGREQ => true | _ => false end.
Definition is_puback (p : packet5) : bool := match p with P_PUBACK _ => true | _ => false end.
(** a publish with QoS other than AT_MOST_ONCE *)
Definition is_acked_publish (p : packet5) : bool := match p with P_PUBLISH v => negb (pb_qos v =? 0) | _ => false end.
(** s_aws_mqtt5_operation_is_retainable, 63-73; the same three types in 3696-3700 *)
Definition is_request (p : packet5) : bool :=
  match p with P_PUBLISH _ | P_SUBSCRIBE _ | P_UNSUBSCRIBE _ => true | _ => false end.
(** s_operation_requires_ack, 3264-3278 *)
Definition requires_ack (p : packet5) : bool :=
  match p with P_SUBSCRIBE _ | P_UNSUBSCRIBE _ => true | P_PUBLISH v => negb (pb_qos v =? 0) | _ => false end.
(** aws_mqtt5_operation_get_packet_id / _set_packet_id, mqtt5_options_storage.c:237-254, for the types whose vtable has them *)
Definition packet_id (p : packet5) : N :=
  match p with P_PUBLISH v => pb_packet_id v | P_SUBSCRIBE v => sb_packet_id v | P_UNSUBSCRIBE v => us_packet_id v | _ => 0 end.
Definition set_packet_id (id : N) (p : packet5) : packet5 :=
  match p with
  | P_PUBLISH v => P_PUBLISH (mkpublish (pb_payload v) id (pb_qos v) (pb_duplicate v) (pb_retain v) (pb_topic v) (pb_payload_format v)
      (pb_message_expiry v) (pb_topic_alias v) (pb_response_topic v) (pb_correlation_data v) (pb_subscription_identifiers v)
      (pb_content_type v) (pb_user_properties v))
  | P_SUBSCRIBE v => P_SUBSCRIBE (mksubscribe id (sb_subscriptions v) (sb_subscription_identifier v) (sb_user_properties v))
  | P_UNSUBSCRIBE v => P_UNSUBSCRIBE (mkunsubscribe id (us_topic_filters v) (us_user_properties v))
  | _ => p
  end.
(** publish_view->duplicate = true, 2896 *)
Definition set_duplicate (p : packet5) : packet5 :=
  match p with
  | P_PUBLISH v => P_PUBLISH (mkpublish (pb_payload v) (pb_packet_id v) (pb_qos v) true (pb_retain v) (pb_topic v) (pb_payload_format v)
      (pb_message_expiry v) (pb_topic_alias v) (pb_response_topic v) (pb_correlation_data v) (pb_subscription_identifiers v)
      (pb_content_type v) (pb_user_properties v))
  | _ => p
  end.

(** aws_timestamp_convert: saturating multiplication *)
Definition ms_to_ns (x : N) : N := mul_sat x 1000000.
Definition s_to_ns (x : N) : N := mul_sat x nanos.
Definition u64_max : N := two64 - 1.

(** assoc lists as hash tables: find, put (which replaces), remove *)
Definition lookup (k : N) (l : list (N * N)) : option N :=
  match find (fun e => fst e =? k) l with Some e => Some (snd e) | None => None end.
Definition remove_key (k : N) (l : list (N * N)) : list (N * N) := filter (fun e => negb (fst e =? k)) l.
Definition put (k v : N) (l : list (N * N)) : list (N * N) := (k, v) :: remove_key k l.
(** finding an operation by identity *)
Definition with_uid (u : N) (o : op) : bool := op_uid o =? u.
Definition find_op (u : N) (l : list op) : option op := find (with_uid u) l.
Definition remove_op (u : N) (l : list op) : list op := filter (fun o => negb (with_uid u o)) l.

Definition emit (o : out) (s : client) : client := set_c_out (o :: c_out s) s.
Definition crash (r : crash_reason) (s : client) : client :=
  match c_crash s with None => set_c_crash (Some r) s | Some _ => s end.
Definition crash_unless (b : bool) (r : crash_reason) (s : client) : client := if b then s else crash r s.

Section Client.
Variable cf : config.

(** s_aws_mqtt5_operation_satisfies_offline_queue_retention_policy, 82-120 *)
Definition satisfies_policy (p : packet5) : bool :=
  match cf_queue cf with
  | FAIL_ALL => false
  | FAIL_QOS0_PUBLISH => if negb (is_request p) then false else match p with P_PUBLISH v => negb (pb_qos v =? 0) | _ => true end
  | FAIL_NON_QOS1_PUBLISH => if negb (is_request p) then false else match p with P_PUBLISH v => negb (pb_qos v =? 0) | _ => false end
  end.

(** aws_mqtt5_client_are_negotiated_settings_valid, 3598-3600 *)
Definition settings_valid (s : client) : bool :=
  match current s with CONNECTED | CLEAN_DISCONNECT => true | _ => false end.

(** ** Statistics, 3692-3744: aws_mqtt5_client_statistics_change_operation_statistic_state; atomics wrap modulo 2^64 *)
Definition add64 (a b : N) : N := u64 (a + b).
Definition sub64 (a b : N) : N := u64 (a + two64 - b).
Definition change_statistics (inc una : bool) (o : op) (s : client) : op * client :=
  if negb (is_request (op_packet o)) then (o, s) else
  match (if op_size o =? 0 then get_encoded_size (op_packet o) else Ok (op_size o)) with
  | Err _ => (o, s)
  | Ok size =>
    let s := crash_unless (negb (size =? 0)) CR_SIZE s in
    let s := if Bool.eqb (op_inc o) inc then s else
      if inc then set_inc_b (add64 (inc_b s) size) (set_inc_n (add64 (inc_n s) 1) s)
      else set_inc_b (sub64 (inc_b s) size) (set_inc_n (sub64 (inc_n s) 1) s) in
    let s := if Bool.eqb (op_una o) una then s else
      if una then set_una_b (add64 (una_b s) size) (set_una_n (add64 (una_n s) 1) s)
      else set_una_b (sub64 (una_b s) size) (set_una_n (sub64 (una_n s) 1) s) in
    (set_stat inc una size o, s)
  end.

(** ** When to service the client next *)
(** AWS_IOT_CORE_PUBLISH_PER_SECOND_LIMIT, AWS_IOT_CORE_THROUGHPUT_LIMIT (mqtt5_utils.h:74-75), buckets of
    aws_mqtt5_client_flow_control_state_init, 3602-3618 *)
Definition pub_cfg : rl_config := mkrlc 100 0 100.
Definition thr_cfg : rl_config := mkrlc 524288 0 524288.
(** THROUGHPUT_TOKENS_PER_IO_MESSAGE_OVERESTIMATE, 3188-3197: 4096 + 4 * 64 *)
Definition thr_tokens : N := 4352.

(** s_compute_throughput_throttle_wait, 3199-3214 *)
Definition throughput_time (now : N) (s : client) : client * N :=
  if negb (settings_valid s) then (s, now) else
  if negb (cf_flow cf) then (s, add_sat now 0) else
  match rl_wait thr_cfg now thr_tokens (thr_rl s) with
  | (b, Some w) => (set_thr_rl b s, add_sat now w)
  | (b, None) => (crash CR_RATE_LIMITER (set_thr_rl b s), now)
  end.
(** aws_mqtt5_client_flow_control_state_get_next_operation_service_time, 3661-3690 *)
Definition flow_time (now : N) (p : packet5) (s : client) : client * N :=
  match p with
  | P_PUBLISH v =>
    let '(s, wait) :=
      if cf_flow cf then
        match rl_wait pub_cfg now 1 (pub_rl s) with
        | (b, Some w) => (set_pub_rl b s, w)
        | (b, None) => (crash CR_RATE_LIMITER (set_pub_rl b s), 0)
        end
      else (s, 0) in
    if 0 <? wait then (s, u64 (now + wait)) else
    if pb_qos v =? 0 then (s, now) else
    if 0 <? tokens s then (s, now) else (s, 0)
  | _ => (s, now)
  end.
(** s_aws_mqtt5_client_compute_operational_state_service_time, 3216-3255, with s_aws_mqtt5_client_has_pending_operational_work, 3122-3149,
    and s_aws_mqtt5_client_compute_next_operation_flow_control_service_time, 3151-3169 *)
Definition operational_time (now : N) (s : client) : client * N :=
  if pending s then (s, 0) else
  let '(s, t) := throughput_time now s in
  if now <? t then (s, t) else
  match curop s with
  | Some _ => (s, now)
  | None =>
    match queued s with
    | [] => (s, 0)
    | o :: _ =>
      match current s with
      | MQTT_CONNECT => (s, if is_connect (op_packet o) then now else 0)
      | CLEAN_DISCONNECT => (s, if is_disconnect (op_packet o) then now else 0)
      | CONNECTED => flow_time now (op_packet o) s
      | _ => (s, 0)
      end
    end
  end.
(** s_min_non_zero_u64, 430-440 *)
Definition min_non_zero (a b : N) : N := if a =? 0 then b else if b =? 0 then a else N.min a b.
(** aws_priority_queue_top of operations_by_ack_timeout: the entry with the least deadline. Among equal deadlines the model takes the
    oldest; the C heap may take another. *)
Fixpoint pq_top (l : list (N * N)) : option (N * N) :=
  match l with
  | [] => None
  | e :: l => match pq_top l with None => Some e | Some e' => if fst e' <? fst e then Some e' else Some e end
  end.
(** s_get_unacked_operation_timeout_for_next_service_time, 445-453 *)
Definition ack_timeout_time (s : client) : N := match pq_top (pq s) with Some (d, _) => d | None => 0 end.
(** s_compute_next_service_time_client_*, 395-510, by s_compute_next_service_time_by_current_state, 512-533 *)
Definition next_service_time (now : N) (s : client) : client * N :=
  match current s with
  | STOPPED => (s, match desired s with D_STOPPED => 0 | _ => now end)
  | CONNECTING | CHANNEL_SHUTDOWN | TERMINATED => (s, 0)
  | MQTT_CONNECT =>
    if negb (wants_connection s) then (s, now) else
    let '(s, t) := operational_time now s in
    (s, if t =? 0 then connack_to s else N.min (connack_to s) t)
  | CONNECTED =>
    let next := if ping_to s =? 0 then ping s else N.min (ping s) (ping_to s) in
    let next := min_non_zero next (ack_timeout_time s) in
    let next := if negb (wants_connection s) then now else next in
    let '(s, t) := operational_time now s in
    let next := min_non_zero t next in
    (s, min_non_zero (reset_at s) next)
  | CLEAN_DISCONNECT =>
    let a := ack_timeout_time s in
    let '(s, t) := operational_time now s in
    (s, min_non_zero a t)
  | PENDING_RECONNECT => (s, if negb (wants_connection s) then now else reconnect_at s)
  end.
(** s_reevaluate_service_task, 535-567. Whatever combination of cancelling and scheduling it does, the service task ends up scheduled for
    next_service_task_run_time if that is non-zero and not scheduled otherwise. *)
Definition reevaluate (now : N) (s : client) : client :=
  if in_service s then s else
  let '(s, t) := next_service_time now s in set_run_at t s.

(** ** Lifecycle events: s_aws_mqtt5_client_emit_final_lifecycle_event, 343-387 *)
Definition emit_final (e : code) (ack : option connack) (dis : option disconnect) (s : client) : client :=
  match life s with
  | LS_NONE => s
  | LS_CONNECTING =>
    let s := crash_unless (match dis with None => true | _ => false end) CR_LIFECYCLE s in
    emit (O_LIFE (CONNECTION_FAILURE e ack)) (set_life LS_NONE s)
  | LS_CONNECTED =>
    let s := crash_unless (match ack with None => true | _ => false end) CR_LIFECYCLE s in
    emit (O_LIFE (DISCONNECTION e dis)) (set_life LS_NONE s)
  end.

(** ** Shutting the channel down *)
(** s_change_current_state (1386-1432) to CHANNEL_SHUTDOWN, 1300-1318 *)
Definition enter_channel_shutdown (now : N) (s : client) : client :=
  if cstate_eqb (current s) CHANNEL_SHUTDOWN then s else
  let s := crash_unless (match current s with MQTT_CONNECT | CONNECTING | CONNECTED | CLEAN_DISCONNECT => true | _ => false end) CR_STATE s in
  reevaluate now (set_current CHANNEL_SHUTDOWN s).
(** s_aws_mqtt5_client_shutdown_channel, 680-705 *)
Definition shutdown_channel (now : N) (e : code) (s : client) : client :=
  let e := match e with K_SUCCESS => K_UNKNOWN | _ => e end in
  let s := emit_final e None None s in
  match current s with
  | MQTT_CONNECT | CONNECTED | CLEAN_DISCONNECT =>
    if negb (slot s) then s else emit (O_SHUTDOWN e) (enter_channel_shutdown now s)
  | _ => s
  end.

(** ** Completing operations *)
(** s_complete_operation, 167-186. Completing a DISCONNECT first calls s_on_disconnect_operation_complete, 723-728
    (mqtt5_options_storage.c:1527-1547). *)
Definition complete (now : N) (o : op) (e : code) (ack : option packet5) (s : client) : client :=
  let '(o, s) := change_statistics false false o s in
  let s := set_pq (filter (fun x => negb (snd x =? op_uid o)) (pq s)) s in
  let s := if is_disconnect (op_packet o) then shutdown_channel now (match e with K_SUCCESS => clean_err s | _ => e end) s else s in
  emit (O_DONE o e ack) s.
(** the same with a NULL client *)
Definition complete_detached (o : op) (e : code) (s : client) : client := emit (O_DONE o e None) s.
(** s_complete_operation_list, 188-204. The callers' list is emptied before instead of after; nothing reads it in between. *)
Definition complete_list (now : N) (l : list op) (e : code) (s : client) : client :=
  fold_left (fun s o => complete now o e None s) l s.

(** s_aws_mqtt5_reset_manual_pub_ack_tables, 623-640 *)
Definition reset_manual (s : client) : client :=
  match mc s with
  | [] => s
  | _ => set_mc [] (set_mx (map fst (mc s) ++ mx s) (set_mp [] s))
  end.
(** s_aws_mqtt5_client_operational_state_reset, 642-664 *)
Definition operational_reset (now : N) (e : code) (s : client) : client :=
  let s := complete_list now (queued s) e (set_queued [] s) in
  let s := complete_list now (wc s) e (set_wc [] s) in
  let s := complete_list now (unacked s) e (set_unacked [] s) in
  reset_manual (set_table [] (set_pq [] s)).
(** s_change_current_state to STOPPED, 668-678 *)
Definition enter_stopped (now : N) (s : client) : client :=
  if cstate_eqb (current s) STOPPED then s else
  let s := set_current STOPPED s in
  let s := operational_reset now K_USER_REQUESTED_STOP s in
  let s := set_has_conn false s in
  reevaluate now (emit (O_LIFE STOPPED_EVENT) s).

(** s_change_current_state to CLEAN_DISCONNECT, 1293-1298 *)
Definition enter_clean_disconnect (now : N) (s : client) : client :=
  if cstate_eqb (current s) CLEAN_DISCONNECT then s else
  let s := crash_unless (match current s with MQTT_CONNECT | CONNECTED => true | _ => false end) CR_STATE s in
  reevaluate now (set_current CLEAN_DISCONNECT s).
(** a new operation object *)
Definition new_op (w : owner) (p : packet5) (override : N) (s : client) : op * client :=
  (op_new (uid s) w p override, set_uid (uid s + 1) s).
(** s_aws_mqtt5_client_shutdown_channel_with_disconnect, 707-721. Outside CONNECTED and MQTT_CONNECT the operation is not used: its
    completion callback is never invoked. *)
Definition shutdown_with_disconnect (now : N) (e : code) (o : op) (s : client) : client :=
  match current s with
  | CONNECTED | MQTT_CONNECT =>
    enter_clean_disconnect now (set_clean_err e (set_queued (o :: queued s) s))
  | _ => shutdown_channel now e (emit (O_LOST o) s)
  end.
(** s_aws_mqtt5_client_shutdown_channel_clean, 730-752 *)
Definition shutdown_clean (now : N) (e : code) (reason : N) (s : client) : client :=
  let '(o, s) := new_op BY_CLIENT (P_DISCONNECT (mkdisconnect reason None None [] None)) 0 s in
  shutdown_with_disconnect now e o s.

(** ** Losing the connection *)
(** s_process_unacked_operations_for_disconnect, 2889-2902 *)
Definition unacked_for_disconnect (o : op) : op :=
  if is_acked_publish (op_packet o) then set_packet (set_duplicate (op_packet o)) o else set_packet (set_packet_id 0 (op_packet o)) o.
(** s_filter_queued_operations_for_offline, 2882-2887 and s_filter_unacked_operations_for_offline, 2904-2916: what is failed *)
Definition fails_policy (o : op) : bool := negb (satisfies_policy (op_packet o)).
Definition unacked_fails_policy (o : op) : bool :=
  if is_acked_publish (op_packet o) then false else negb (satisfies_policy (op_packet o)).
(** aws_mqtt5_client_on_disconnection_update_operational_state, 2936-2992 *)
Definition on_disconnection (now : N) (s : client) : client :=
  let s := match curop s with Some o => set_curop None (set_queued (o :: queued s) s) | None => s end in
  let s := complete_list now (wc s) K_OFFLINE_QUEUE_POLICY (set_wc [] s) in
  let failed := filter fails_policy (queued s) in
  let s := set_queued (filter (fun o => negb (fails_policy o)) (queued s)) s in
  let s := complete_list now failed K_OFFLINE_QUEUE_POLICY s in
  let l := map unacked_for_disconnect (unacked s) in
  let s := set_unacked (filter (fun o => negb (unacked_fails_policy o)) l) s in
  let s := complete_list now (filter unacked_fails_policy l) K_OFFLINE_QUEUE_POLICY s in
  let s := set_pq [] (set_table [] s) in
  let s := reset_manual s in
  set_c_alias (mkin (in_table (c_alias s)) false) s.

(** ** Reconnecting, 1320-1384 *)
(** aws_mqtt5_client_random_in_range, mqtt5_utils.c:401-425 *)
Definition random_in_range (rnd : option N) (from to : N) : N :=
  let max := N.max from to in
  let min := N.min from to in
  let diff := max - min in
  if diff =? 0 then min else
  match rnd with
  | None => min
  | Some r => if diff =? u64_max then u64 r else min + u64 r mod (diff + 1)
  end.
Definition backoff_no_jitter (s : client) : N := mul_sat (2 ^ N.min (recount s) 63) (cf_min_delay_ms cf).
Definition backoff_full_jitter (rnd : option N) (s : client) : N := random_in_range rnd 0 (backoff_no_jitter s).
Definition backoff_decorrelated (rnd : option N) (s : client) : N :=
  if delay s =? 0 then backoff_full_jitter rnd s else random_in_range rnd (cf_min_delay_ms cf) (mul_sat (delay s) 3).
Definition reconnect_delay_ms (rnd : option N) (s : client) : N :=
  let d := match cf_jitter cf with
    | JITTER_DECORRELATED => backoff_decorrelated rnd s
    | JITTER_NONE => backoff_no_jitter s
    | JITTER_FULL => backoff_full_jitter rnd s
    end in
  N.min d (cf_max_delay_ms cf).
(** s_change_current_state to PENDING_RECONNECT, 1374-1378, s_update_reconnect_delay_for_pending_reconnect, 1343-1372 *)
Definition enter_pending_reconnect (ev : env) (s : client) : client :=
  if cstate_eqb (current s) PENDING_RECONNECT then s else
  let s := set_current PENDING_RECONNECT s in
  let s := set_reconnect_at (add_sat (e_now ev) (ms_to_ns (reconnect_delay_ms (e_rnd ev) s))) s in
  reevaluate (e_now ev) (set_recount (u64 (recount s + 1)) s).
(** s_mqtt5_client_shutdown_final, 754-780, via s_mqtt5_client_shutdown, 782-799 *)
Definition channel_gone (ev : env) (err : option N) (s : client) : client :=
  let e := match err with None => K_UNEXPECTED_HANGUP | Some n => K_ENV n end in
  let s := emit_final e None None s in
  let s := set_slot false s in
  let s := on_disconnection (e_now ev) s in
  if wants_connection s then enter_pending_reconnect ev s else enter_stopped (e_now ev) s.

(** ** Connecting *)
(** s_change_current_state to CONNECTING, 1038-1085 *)
Definition enter_connecting (ev : env) (s : client) : client :=
  if cstate_eqb (current s) CONNECTING then s else
  let s := set_current CONNECTING s in
  let s := set_should_reset false (set_clean_err K_SUCCESS s) in
  let s := emit (O_LIFE ATTEMPTING_CONNECT) (set_life LS_CONNECTING s) in
  let s := match e_connect ev with
    | None => emit O_CONNECT (set_chan CH_ATTEMPT s)
    | Some n => enter_pending_reconnect ev (emit_final (K_ENV n) None None s)
    end in
  reevaluate (e_now ev) s.

(** s_should_resume_session, 1196-1202 *)
Definition should_resume (s : client) : bool :=
  match cf_session cf with REJOIN_POST_SUCCESS => has_conn s | REJOIN_ALWAYS => true | SESSION_CLEAN => false end.
(** the CONNECT packet, 1216-1229: the configured one with clean start, inbound alias maximum and the client id filled in *)
Definition connect_view (s : client) : connect :=
  let v := cf_connect cf in
  mkconnect (cn_keep_alive v) (cn_client_id v) (cn_username v) (cn_password v) (negb (should_resume s)) (cn_session_expiry v)
    (cn_request_response_info v) (cn_request_problem_info v) (cn_receive_maximum v)
    (match cf_alias_in cf with Some n => Some n | None => cn_topic_alias_maximum v end) (cn_maximum_packet_size v)
    (cn_will_delay v) (cn_will v) (cn_user_properties v) (cn_auth_method v) (cn_auth_data v).
Definition with_client_id (id : bytes) (v : connect) : connect :=
  mkconnect (cn_keep_alive v) id (cn_username v) (cn_password v) (cn_clean_start v) (cn_session_expiry v)
    (cn_request_response_info v) (cn_request_problem_info v) (cn_receive_maximum v) (cn_topic_alias_maximum v) (cn_maximum_packet_size v)
    (cn_will_delay v) (cn_will v) (cn_user_properties v) (cn_auth_method v) (cn_auth_data v).
(** s_change_current_state to MQTT_CONNECT, 1204-1262. aws_mqtt5_operation_connect_new validates the packet. *)
Definition enter_mqtt_connect (ev : env) (s : client) : client :=
  let now := e_now ev in
  if cstate_eqb (current s) MQTT_CONNECT then s else
  let s := crash_unless (cstate_eqb (current s) CONNECTING) CR_STATE s in
  let s := crash_unless (match curop s with None => true | Some _ => false end) CR_STATE s in
  let s := set_current MQTT_CONNECT s in
  if should_reset s then reevaluate now (shutdown_channel now K_RESET_FOR_ADAPTER s) else
  let s := set_pending false s in
  let s := set_c_enc (mkencoder [] (enc_resolver (c_enc s))) s in
  let s := set_c_dec (d5_reset (c_dec s)) s in
  let view := connect_view s in
  let s := set_c_neg (ng_reset (c_neg s) view) s in
  let view := with_client_id (ng_client_id (c_neg s)) view in
  if negb (validate_connect view) then reevaluate now (shutdown_channel now K_CONNECT_OPTIONS s) else
  let '(o, s) := new_op BY_CLIENT (P_CONNECT view) 0 s in
  let s := reevaluate now (set_queued (o :: queued s) s) in
  let timeout := if cf_connack_timeout_ms cf =? 0 then 10000 else cf_connack_timeout_ms cf in
  let s := set_connack_to (u64 (now + ms_to_ns timeout)) s in
  reevaluate now s.
(** s_mqtt5_client_setup, 801-860, with no error from the layers below *)
Definition channel_up (ev : env) (s : client) : client :=
  let now := e_now ev in
  let s := crash_unless (cstate_eqb (current s) CONNECTING) CR_STATE s in
  if negb (wants_connection s) then emit (O_SHUTDOWN K_USER_REQUESTED_STOP) (enter_channel_shutdown now s) else
  let s := set_slot true s in
  match e_slot ev with
  | Some n => emit (O_SHUTDOWN (K_ENV n)) (enter_channel_shutdown now s)
  | None => enter_mqtt_connect ev s
  end.

(** ** Connected *)
(** s_set_operation_list_statistic_state, 2994-3005 *)
Fixpoint set_list_incomplete (l : list op) (s : client) : list op * client :=
  match l with
  | [] => ([], s)
  | o :: l =>
    let '(o, s) := change_statistics true false o s in
    let '(l, s) := set_list_incomplete l s in
    (o :: l, s)
  end.
(** aws_mqtt5_client_flow_control_state_reset, 3620-3629 *)
Definition flow_reset (now : N) (s : client) : client :=
  let s := crash_unless (settings_valid s) CR_FLOW_RESET s in
  set_tokens (ng_receive_maximum (c_neg s)) (set_pub_rl (rl_reset pub_cfg now) (set_thr_rl (rl_reset thr_cfg now) s)).
(** aws_mqtt5_client_on_connection_update_operational_state, 3030-3120 *)
Definition on_connection (now : N) (s : client) : client :=
  let s :=
    if ng_rejoined (c_neg s) then
      let others := filter (fun o => negb (is_acked_publish (op_packet o))) (unacked s) in
      let publishes := filter (fun o => is_acked_publish (op_packet o)) (unacked s) in
      set_unacked [] (set_queued (publishes ++ others ++ queued s) s)
    else
      let failed := filter fails_policy (unacked s) in
      let kept := filter (fun o => negb (fails_policy o)) (unacked s) in
      let s := complete_list now failed K_OFFLINE_QUEUE_POLICY (set_unacked [] s) in
      set_queued (kept ++ queued s) s in
  let '(l, s) := set_list_incomplete (queued s) s in
  let s := flow_reset now (set_queued l s) in
  let s := set_c_alias (in_connect (ng_alias_maximum_to_client (c_neg s))) s in
  set_c_enc (mkencoder (enc_steps (c_enc s)) (Some (out_reset (out_new (cf_alias_out cf)) (ng_alias_maximum_to_server (c_neg s))))) s.
(** s_reset_ping, 1120-1134 *)
Definition reset_ping (now : N) (s : client) : client :=
  let interval := s_to_ns (ng_keep_alive (c_neg s)) in
  set_ping (if interval =? 0 then u64_max else add_sat now interval) s.
(** s_change_current_state to CONNECTED, 1280-1291, s_reset_reconnection_delay_time, 1264-1278 *)
Definition enter_connected (now : N) (s : client) : client :=
  if cstate_eqb (current s) CONNECTED then s else
  let s := crash_unless (cstate_eqb (current s) MQTT_CONNECT) CR_STATE s in
  let s := set_current CONNECTED s in
  let s := on_connection now s in
  let s := set_has_conn true s in
  let s := set_ping_to 0 s in
  let s := reset_ping now s in
  let s := set_reset_at (add_sat now (ms_to_ns (cf_min_connected_ms cf))) s in
  reevaluate now s.
(** s_aws_mqtt5_client_on_connack, 1731-1778 *)
Definition on_connack (now : N) (v : connack) (s : client) : client :=
  let s := crash_unless (cstate_eqb (current s) MQTT_CONNECT) CR_CONNACK s in
  if negb (ca_reason_code v <? 128) then
    shutdown_channel now K_CONNECTION_REFUSED (emit_final K_CONNECTION_REFUSED (Some v) None s)
  else
    let s := set_c_neg (ng_apply (c_neg s) v) s in
    if ng_rejoined (c_neg s) && negb (should_resume s) then
      shutdown_channel now K_CANCELLED_FOR_CLEAN_SESSION (emit_final K_CANCELLED_FOR_CLEAN_SESSION (Some v) None s)
    else
      let s := enter_connected now s in
      emit (O_LIFE (CONNECTION_SUCCESS (c_neg s) v)) (set_life LS_CONNECTED s).

(** ** Sending *)
(** s_needs_packet_id, 2733-2751 *)
Definition needs_packet_id (p : packet5) : bool :=
  match p with
  | P_SUBSCRIBE _ | P_UNSUBSCRIBE _ => packet_id p =? 0
  | P_PUBLISH v => if pb_qos v =? 0 then false else packet_id p =? 0
  | _ => false
  end.
(** s_next_packet_id, 2753-2759 *)
Definition next_packet_id (id : N) : N := if (id + 1) mod 65536 =? 0 then 1 else (id + 1) mod 65536.
(** The loop of aws_mqtt5_operation_bind_packet_id, 2770-2781, runs 65535 times: through every id once. A table with n entries blocks at
    most n of n + 1 different ids, and one that blocks all 65535 ids has 65535 entries, so [S (length table)] rounds decide the same. *)
Fixpoint free_packet_id (rounds : nat) (id : N) (t : list (N * N)) : option N :=
  match rounds with
  | O => None
  | S rounds => match lookup id t with None => Some id | Some _ => free_packet_id rounds (next_packet_id id) t end
  end.
(** aws_mqtt5_operation_bind_packet_id, 2761-2785 *)
Definition bind_packet_id (o : op) (s : client) : option (op * client) :=
  if negb (needs_packet_id (op_packet o)) then Some (o, s) else
  match free_packet_id (S (length (table s))) (next_id s) (table s) with
  | None => None
  | Some id => Some (set_packet (set_packet_id id (op_packet o)) o, set_next_id (next_packet_id id) s)
  end.
(** s_aws_mqtt5_client_set_current_operation, 1087-1118. On failure nobody keeps or completes the operation. *)
Definition set_current_operation (o : op) (s : client) : client * bool :=
  match bind_packet_id o s with
  | None => (emit (O_LOST o) s, false)
  | Some (o, s) =>
    match append_packet (c_enc s) (op_packet o) with
    | (e, A_OK) => (set_curop (Some o) (set_c_enc e s), true)
    | (e, A_FAILED _) => (emit (O_LOST o) (set_c_enc e s), false)
    | (e, A_ABORT) => (crash CR_ENCODER (set_curop (Some o) (set_c_enc e s)), true)
    end
  end.
(** aws_mqtt5_operation_validate_vs_connection_settings, mqtt5_options_storage.c:267-314, with the per type checks 1341-1367 and 1767-1796:
    outside CONNECTED and CLEAN_DISCONNECT only the check of a DISCONNECT looks at anything *)
Definition limits_of (s : client) : limits :=
  mklimits (ng_maximum_packet_size (c_neg s)) (ng_maximum_qos (c_neg s)) (ng_retain (c_neg s)) (cn_session_expiry (cf_connect cf)).
Definition validate_operation (p : packet5) (s : client) : bool :=
  if settings_valid s then validate_vs_settings (limits_of s) p else
  match p with
  | P_DISCONNECT v =>
    match dc_session_expiry v with
    | Some e => negb ((0 <? e) && match cn_session_expiry (cf_connect cf) with None => true | Some c => c =? 0 end)
    | None => true
    end
  | _ => true
  end.
(** the inner loop 3356-3394: the next valid operation, none, or a DISCONNECT that failed validation *)
Inductive pulled := PULLED (o : op) | NOTHING | BAD_DISCONNECT.
Fixpoint pull (now : N) (q : list op) (s : client) : client * pulled :=
  match q with
  | [] => (s, NOTHING)
  | o :: q =>
    (* s_apply_publish_tps_flow_control, 3315-3326 *)
    let '(s, ok) :=
      if cf_flow cf && is_publish (op_packet o) then let '(b, ok) := rl_take pub_cfg now 1 (pub_rl s) in (set_pub_rl b s, ok) else (s, true) in
    if negb ok then (s, NOTHING) else
    let s := set_queued q s in
    if validate_operation (op_packet o) s then (s, PULLED o) else
    let s := complete now o K_VALIDATION None s in
    if is_disconnect (op_packet o) then (s, BAD_DISCONNECT) else pull now q s
  end.
(** aws_mqtt5_client_flow_control_state_on_outbound_operation, 3643-3659 *)
Definition on_outbound (p : packet5) (s : client) : client :=
  if is_acked_publish p then set_tokens (tokens s - 1) (crash_unless (0 <? tokens s) CR_RECEIVE_MAXIMUM s) else s.
(** s_on_pingreq_send, 3280-3298 *)
Definition on_pingreq_send (now : N) (s : client) : client :=
  let timeout := ms_to_ns (cf_ping_timeout_ms cf) in
  let half := s_to_ns (ng_keep_alive (c_neg s)) / 2 in
  let timeout := if (timeout =? 0) || (half <? timeout) then half else timeout in
  set_ping_to (add_sat now timeout) s.
(** a finished encoding, 3417-3480 *)
Definition finish_operation (now : N) (o : op) (s : client) : client :=
  let s := on_outbound (op_packet o) s in
  let s :=
    if requires_ack (op_packet o) then
      let s := crash_unless (negb (packet_id (op_packet o) =? 0)) CR_PACKET_ID s in
      let s := set_table (put (packet_id (op_packet o)) (op_uid o) (table s)) s in
      let seconds := if op_override o =? 0 then cf_ack_timeout_s cf else op_override o in
      let deadline := if 0 <? seconds then u64 (now + s_to_ns seconds) else u64_max in
      let o := set_deadline deadline o in
      let s := set_pq (pq s ++ [(deadline, op_uid o)]) s in
      let '(o, s) := change_statistics true true o s in
      set_unacked (unacked s ++ [o]) s
    else
      let s := set_wc (wc s ++ [o]) s in
      if is_pingreq (op_packet o) then on_pingreq_send now s else s in
  emit (O_SENT o) (set_curop None s).
(** the loop of aws_mqtt5_client_service_operational_state, 3353-3487. Every round sends or drops an operation, so [rounds] of the caller
    (operations waiting plus one) are enough. *)
Fixpoint service_loop (rounds : nat) (now : N) (b : buf) (s : client) : client * buf * option code :=
  match rounds with
  | O => (s, b, None)
  | S rounds =>
    let '(s, failure) :=
      match curop s with
      | Some _ => (s, None)
      | None =>
        let '(s, r) := pull now (queued s) s in
        match r with
        | PULLED o => let '(s, ok) := set_current_operation o s in (s, if ok then None else Some K_PROCESSING_FAILURE)
        | NOTHING => (s, None)
        | BAD_DISCONNECT => (s, Some K_PROCESSING_FAILURE)
        end
      end in
    match failure, curop s with
    | Some e, _ => (s, b, Some e)
    | None, None => (s, b, None)
    | None, Some o =>
      let '(e, b, r) := encode_to_buffer (c_enc s) b in
      let s := set_c_enc e s in
      match r with
      | ER_ERROR => (s, b, Some K_ENCODE_FAILURE)
      | ER_OUT_OF_ROOM => (s, b, None)
      | ER_FINISHED =>
        let s := finish_operation now o s in
        let '(s, t) := operational_time now s in
        if t =? now then service_loop rounds now b s else (s, b, None)
      end
    end
  end.
(** aws_mqtt5_client_service_operational_state, 3328-3513, with s_apply_throughput_flow_control, 3300-3313: Some code if it fails *)
Definition service_operations (ev : env) (s : client) : client * option code :=
  let now := e_now ev in
  let '(s, t) := operational_time now s in
  if negb (t =? now) then (s, None) else
  let '(s, ok) :=
    if settings_valid s && cf_flow cf then let '(b, ok) := rl_take thr_cfg now thr_tokens (thr_rl s) in (set_thr_rl b s, ok) else (s, true) in
  if negb ok then (s, None) else
  match e_msg ev with
  | None => (s, Some (K_ENV 0))
  | Some cap =>
    let '(s, b, failure) := service_loop (S (S (length (queued s)))) now (mkbuf cap []) s in
    match failure with
    | Some e => (s, Some e)
    | None =>
      match bdata b with
      | [] => (s, None)
      | data =>
        if e_send ev then (emit (O_WRITE data) (set_outstanding true (set_pending true s)), None)
        else (set_pending false s, Some (K_ENV 0))
      end
    end
  end.
Definition service_or_shutdown (ev : env) (s : client) : client * bool :=
  let '(s, r) := service_operations ev s in
  match r with Some e => (shutdown_channel (e_now ev) e s, false) | None => (s, true) end.

(** s_check_timeouts, 206-249: one round per entry of the timeout queue *)
Fixpoint check_timeouts (rounds : nat) (now : N) (s : client) : client :=
  match rounds with
  | O => s
  | S rounds =>
    match pq_top (pq s) with
    | None => s
    | Some (d, u) =>
      if now <? d then s else
      let s := set_pq (filter (fun x => negb (snd x =? u)) (pq s)) s in
      match find_op u (unacked s) with
      | None => crash CR_POINTER s
      | Some o =>
        let id := packet_id (op_packet o) in
        match lookup id (table s) with
        | None => s
        | Some _ =>
          let s := set_unacked (remove_op u (unacked s)) s in
          let s := set_table (remove_key id (table s)) s in
          check_timeouts rounds now (complete now o K_TIMEOUT None s)
        end
      end
    end
  end.

(** ** The service task, 1434-1636 *)
(** s_mqtt5_client_final_destroy, 251-284, from STOPPED *)
Definition enter_terminated (now : N) (s : client) : client :=
  let s := set_current TERMINATED s in
  emit O_TERMINATED (operational_reset now K_CLIENT_TERMINATED s).
Definition service_stopped (ev : env) (s : client) : client * bool :=
  match desired s with
  | D_CONNECTED => (enter_connecting ev s, false)
  | D_TERMINATED => (enter_terminated (e_now ev) s, true)
  | D_STOPPED => (s, false)
  end.
Definition service_mqtt_connect (ev : env) (s : client) : client :=
  let now := e_now ev in
  if negb (wants_connection s) then shutdown_channel now K_USER_REQUESTED_STOP (emit_final K_USER_REQUESTED_STOP None None s) else
  if connack_to s <=? now then shutdown_channel now K_CONNACK_TIMEOUT (emit_final K_CONNACK_TIMEOUT None None s) else
  fst (service_or_shutdown ev s).
(** s_aws_mqtt5_client_queue_ping, 1480-1489 *)
Definition queue_ping (now : N) (s : client) : client :=
  let s := reset_ping now s in
  let '(o, s) := new_op BY_CLIENT P_PINGREQ 0 s in
  reevaluate now (set_queued (o :: queued s) s).
Definition service_connected (ev : env) (s : client) : client :=
  let now := e_now ev in
  if negb (wants_connection s) then shutdown_channel now K_USER_REQUESTED_STOP (emit_final K_USER_REQUESTED_STOP None None s) else
  if (ping_to s <=? now) && negb (ping_to s =? 0) then
    shutdown_clean now K_PING_RESPONSE_TIMEOUT 141 (emit_final K_PING_RESPONSE_TIMEOUT None None s)
  else
    let s := if ping s <=? now then queue_ping now s else s in
    let s := if (reset_at s <=? now) && negb (reset_at s =? 0) then set_reset_at 0 (set_delay 0 (set_recount 0 s)) else s in
    let s := check_timeouts (length (pq s)) now s in
    fst (service_or_shutdown ev s).
Definition service_clean_disconnect (ev : env) (s : client) : client :=
  let '(s, ok) := service_or_shutdown ev s in
  if ok then check_timeouts (length (pq s)) (e_now ev) s else s.
Definition service_pending_reconnect (ev : env) (s : client) : client :=
  if negb (wants_connection s) then enter_stopped (e_now ev) s else
  if reconnect_at s <=? e_now ev then enter_connecting ev s else s.
(** s_mqtt5_service_task_fn, 1587-1636 *)
Definition service_task (ev : env) (s : client) : client :=
  let s := set_in_service true (set_run_at 0 s) in
  let '(s, terminated) :=
    match current s with
    | STOPPED => service_stopped ev s
    | MQTT_CONNECT => (service_mqtt_connect ev s, false)
    | CONNECTED => (service_connected ev s, false)
    | CLEAN_DISCONNECT => (service_clean_disconnect ev s, false)
    | PENDING_RECONNECT => (service_pending_reconnect ev s, false)
    | CONNECTING | CHANNEL_SHUTDOWN | TERMINATED => (s, false)
    end in
  if terminated then s else reevaluate (e_now ev) (set_in_service false s).

(** ** Write completions: s_aws_mqtt5_on_socket_write_completion, 1136-1194 *)
Definition on_written (ev : env) (err : option N) (s : client) : client :=
  let now := e_now ev in
  let s := set_outstanding false (set_pending false s) in
  let s := match current s with
    | MQTT_CONNECT | CONNECTED | CLEAN_DISCONNECT =>
      match err with Some n => shutdown_channel now (K_ENV n) s | None => reevaluate now s end
    | _ => s
    end in
  complete_list now (wc s) (match err with Some n => K_ENV n | None => K_SUCCESS end) (set_wc [] s).

(** ** Received packets *)
(** aws_mqtt5_client_flow_control_state_on_puback, 3631-3641 *)
Definition on_puback (now : N) (s : client) : client :=
  let was_zero := tokens s =? 0 in
  let s := set_tokens (N.min (ng_receive_maximum (c_neg s)) ((tokens s + 1) mod 4294967296)) s in
  if was_zero then reevaluate now s else s.
(** s_should_client_disconnect_cleanly, 1638-1642 *)
Definition disconnect_for_protocol_error (now : N) (s : client) : client :=
  if cstate_eqb (current s) CONNECTED then shutdown_clean now K_DECODE_PROTOCOL_ERROR 130 s
  else shutdown_channel now K_DECODE_PROTOCOL_ERROR s.
(** s_aws_mqtt5_client_validate_ack_reason_code_count, 3515-3535; [confused] is the outcome when the operation has another type *)
Definition ack_count_matches (confused : bool) (p ack : packet5) : bool :=
  match ack with
  | P_SUBACK a => match p with P_SUBSCRIBE v => len (sb_subscriptions v) =? len (sa_reason_codes a) | _ => confused end
  | P_UNSUBACK a => match p with P_UNSUBSCRIBE v => len (us_topic_filters v) =? len (sa_reason_codes a) | _ => confused end
  | _ => true
  end.
(** aws_mqtt5_client_operational_state_handle_ack, 3537-3596 *)
Definition handle_ack (ev : env) (id : N) (ack : packet5) (s : client) : client :=
  let now := e_now ev in
  let confused := e_confused ev (length (c_out s)) in
  let s := if is_puback ack then on_puback now s else s in
  match lookup id (table s) with
  | None => s
  | Some u =>
    match find_op u (unacked s) with
    | None => crash CR_POINTER s
    | Some o =>
      let s := set_unacked (remove_op u (unacked s)) s in
      let s := set_table (remove_key id (table s)) s in
      if ack_count_matches confused (op_packet o) ack then complete now o K_SUCCESS (Some ack) s
      else disconnect_for_protocol_error now (complete now o K_DECODE_PROTOCOL_ERROR None s)
    end
  end.
(** s_aws_mqtt5_client_queue_puback, 1868-1903, with s_insert_node_before_predicate_failure, 1840-1866 *)
Fixpoint insert_puback (o : op) (l : list op) : list op :=
  match l with
  | [] => [o]
  | x :: r => if is_puback (op_packet x) || is_pingreq (op_packet x) then x :: insert_puback o r else o :: l
  end.
Definition queue_puback (now : N) (w : owner) (id : N) (s : client) : client :=
  let '(o, s) := new_op w (P_PUBACK (mkpuback id 0 None [])) 0 s in
  reevaluate now (set_queued (insert_puback o (queued s)) s).
(** aws_mqtt5_client_acquire_publish_acknowledgement, 2637-2731: the control id (None for QoS 0) *)
Definition acquire_ack (v : publish) (s : client) : client * option N :=
  if pb_qos v =? 0 then (s, None) else
  match lookup (pb_packet_id v) (mp s) with
  | Some c => (s, Some c)
  | None =>
    let c := next_ctl s in
    let s := set_mp (put (pb_packet_id v) c (mp s)) s in
    let s := set_mc (put c (pb_packet_id v) (mc s)) s in
    (set_next_ctl (u64 (c + 1)) s, Some c)
  end.
Definition on_publish (ev : env) (v : publish) (s : client) : client :=
  let '(s, control) := if e_acquire ev (length (c_out s)) then acquire_ack v s else (s, None) in
  let s := emit (O_PUBLISH v control) s in
  if pb_qos v =? 0 then s else
  match lookup (pb_packet_id v) (mp s) with
  | Some _ => s
  | None => queue_puback (e_now ev) BY_CLIENT (pb_packet_id v) s
  end.
(** s_aws_mqtt5_client_connected_on_packet_received, 1905-1978 *)
Definition connected_on_packet (ev : env) (p : packet5) (s : client) : client :=
  let now := e_now ev in
  match p with
  | P_PINGRESP => set_ping_to 0 s
  | P_DISCONNECT v => shutdown_channel now K_DISCONNECT_RECEIVED (emit_final K_DISCONNECT_RECEIVED None (Some v) s)
  | P_SUBACK a | P_UNSUBACK a => handle_ack ev (sa_packet_id a) p s
  | P_PUBACK a => handle_ack ev (pa_packet_id a) p s
  | P_PUBLISH v => on_publish ev v s
  | _ => s
  end.
(** s_aws_mqtt5_client_on_packet_received, 1980-2006, and s_aws_mqtt5_client_mqtt_connect_on_packet_received, 1820-1833 *)
Definition on_packet (ev : env) (p : packet5) (s : client) : client :=
  let now := e_now ev in
  let s := emit (I_PACKET p) s in
  let s := match current s with
    | MQTT_CONNECT =>
      match p with
      | P_CONNACK v => on_connack now v s
      | _ => shutdown_clean now K_DECODE_PROTOCOL_ERROR 130 s
      end
    | CONNECTED | CLEAN_DISCONNECT => connected_on_packet ev p s
    | _ => s
    end in
  reevaluate now s.
(** s_process_read_message, 1644-1687: the decoder's callback is [on_packet], which always succeeds. After a failed assertion the rest of the
    data does nothing. *)
Definition read_callback (ev : env) (p : packet5) (w : in_state * client) : (in_state * client) * bool :=
  match c_crash (snd w) with
  | Some _ => (w, true)
  | None => let s := on_packet ev p (set_c_alias (fst w) (snd w)) in ((c_alias s, s), true)
  end.
Definition on_read (ev : env) (data : bytes) (s : client) : client :=
  let '(d, (a, s'), r) := d5_on_data client (read_callback ev) (c_dec s) data (c_alias s, s) in
  let s := set_c_alias a (set_c_dec d s') in
  match r, c_crash s with
  | DR_SUCCESS, _ | _, Some _ => s
  | _, None => disconnect_for_protocol_error (e_now ev) s
  end.

(** ** The API's tasks *)
(** aws_mqtt5_client_change_desired_state, 2173-2196; with a DISCONNECT operation, aws_mqtt5_client_stop, 2288-2323 *)
Definition change_desired (now : N) (d : dstate) (dis : option disconnect) (s : client) : client :=
  let '(o, s) := match dis with
    | Some v => let '(o, s) := new_op BY_USER (P_DISCONNECT v) 0 s in (Some o, emit (I_SUBMIT o) s)
    | None => (None, s)
    end in
  if dstate_eqb (desired s) d then match o with Some o => emit (O_LOST o) s | None => s end else
  let s := set_desired d s in
  let s := match d, o with
    | D_STOPPED, Some o => shutdown_with_disconnect now K_USER_REQUESTED_STOP o s
    | _, Some o => emit (O_LOST o) s
    | _, None => s
    end in
  reevaluate now s.
(** aws_mqtt5_client_submit_operation_internal, 2332-2367 *)
Definition submit (now : N) (p : packet5) (override : N) (terminated : bool) (s : client) : client :=
  let '(o, s) := new_op BY_USER p override s in
  let s := emit (I_SUBMIT o) s in
  if terminated then complete_detached o K_CLIENT_TERMINATED s else
  if negb (cstate_eqb (current s) CONNECTED) && negb (satisfies_policy p) then complete_detached o K_OFFLINE_QUEUE_POLICY s else
  let o := set_packet (set_packet_id 0 p) o in
  (* 2365-2366: the statistics change after the service time is reevaluated, which does not look at them *)
  let '(o, s) := change_statistics true false o s in
  reevaluate now (set_queued (queued s ++ [o]) s).
(** s_mqtt5_manual_pub_ack_task_fn, 2504-2586 *)
Definition manual_ack (now : N) (control : N) (s : client) : client :=
  let s := emit (I_ACK control) s in
  match lookup control (mc s) with
  | Some id => queue_puback now (BY_ACK control) id (set_mc (remove_key control (mc s)) (set_mp (remove_key id (mp s)) s))
  | None =>
    if existsb (N.eqb control) (mx s)
    then emit (O_ACK_RESULT control MPAR_CANCELLED) (set_mx (filter (fun x => negb (x =? control)) (mx s)) s)
    else emit (O_ACK_RESULT control MPAR_INVALID) s
  end.
(** aws_mqtt5_client_reset_connection, 3757-3777 *)
Definition reset_connection (now : N) (s : client) : client :=
  let s := set_delay (cf_min_delay_ms cf) s in
  match current s with
  | MQTT_CONNECT | CONNECTED => shutdown_channel now K_RESET_FOR_ADAPTER s
  | CONNECTING => set_should_reset true s
  | _ => s
  end.

(** ** Events *)
Inductive event :=
| EStart | EStop (d : option disconnect) | ETerminate               (* aws_mqtt5_client_start / stop / the last release *)
| ESubmit (p : packet5) (override : N)                              (* publish, subscribe, unsubscribe *)
| ECancelledSubmit (p : packet5)                                    (* its task is cancelled instead of run *)
| EAck (control : N)                                                (* invoke_publish_acknowledgement *)
| EReset                                                            (* the 3.1.1 adapter's reset *)
| EService                                                          (* the service task is due *)
| ESetup (err : option N) | EShutdown (err : option N)              (* channel callbacks; None is AWS_ERROR_SUCCESS *)
| ERead (data : bytes) | EWritten (err : option N).
(** Which events can happen. The API's functions validate their options and refuse bad ones before anything else happens
    (mqtt5_options_storage.c: aws_mqtt5_operation_publish_new etc.); after the last reference is released no API call can follow; the
    channel layer calls setup once per attempt, and reads, write completions and shutdown only in between. *)
Definition enabled (ev : env) (e : event) (s : client) : bool :=
  match e with
  | EStart | EStop None | EAck _ | EReset | ETerminate => negb (dstate_eqb (desired s) D_TERMINATED)
  | EStop (Some v) => negb (dstate_eqb (desired s) D_TERMINATED) && validate_disconnect v
  | ESubmit p _ | ECancelledSubmit p => negb (dstate_eqb (desired s) D_TERMINATED) && is_request p && validate_packet p
  | EService => (0 <? run_at s) && (run_at s <=? e_now ev)
  | ESetup _ => match chan s with CH_ATTEMPT => true | _ => false end
  | EShutdown _ => match chan s with CH_UP => true | _ => false end
  | ERead data => match chan s with CH_UP => slot s && forallb (fun b => b <? 256) data | _ => false end
  | EWritten _ => match chan s with CH_UP => outstanding s | _ => false end
  end.
Definition handle (ev : env) (e : event) (s : client) : client :=
  let now := e_now ev in
  match e with
  | EStart => change_desired now D_CONNECTED None s
  | EStop d => change_desired now D_STOPPED d s
  | ETerminate => change_desired now D_TERMINATED None s
  | ESubmit p override => submit now p override false s
  | ECancelledSubmit p => submit now p 0 true s
  | EAck control => manual_ack now control s
  | EReset => reset_connection now s
  | EService => service_task ev s
  | ESetup (Some n) => channel_gone ev (Some n) (set_chan CH_NONE s)
  | ESetup None => channel_up ev (set_chan CH_UP s)
  | EShutdown err => channel_gone ev err (set_outstanding false (set_chan CH_NONE s))
  | ERead data => on_read ev data s
  | EWritten err => on_written ev err s
  end.
(** One event. An event the environment cannot produce, or any event after a failed assertion or after termination, changes nothing. *)
Definition client_step (s : client) (x : env * event) : client :=
  let '(ev, e) := x in
  match c_crash s with
  | Some _ => s
  | None => if cstate_eqb (current s) TERMINATED || negb (enabled ev e s) then s else handle ev e (emit (I_TICK (e_now ev)) s)
  end.
Definition client_run (s : client) (l : list (env * event)) : client := fold_left client_step l s.

(** aws_mqtt5_client_new, 2056-2147 *)
Definition client_new (now : N) : client :=
  mkclient
    (mkctl D_STOPPED STOPPED LS_NONE false CH_NONE K_SUCCESS false false false 0)
    (mkops [] None [] [] [] [] false 1 false 0)
    (mkman [] [] [] 1)
    (mkflow 0 (rl_reset pub_cfg now) (rl_reset thr_cfg now))
    (mktim 0 0 0 0 0 0 0)
    (mksta 0 0 0 0)
    (ng_init (cn_client_id (cf_connect cf)))
    (mkencoder [] None) d5_init (mkin [] false) None [].
(** a client's history from its creation *)
Definition client_history (now : N) (l : list (env * event)) : client := client_run (client_new now) l.
End Client.
