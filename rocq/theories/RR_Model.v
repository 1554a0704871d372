(** Model of the MQTT request-response client: source/request-response/request_response_client.c, subscription_manager.c and
    request_response_subscription_set.c. Everything the client does happens on one event-loop thread; the model is a state machine whose
    steps are the callbacks and tasks run on that thread, and the API calls (which only allocate an operation and schedule a task).

    Simplifications. The hash tables are lists in some order; the order in which they are walked through is up to the environment (events
    [ESwap...]). The priority queue of timeouts is the set of operations marked [o_timed]; the earliest one is taken. Operations are never
    reused, the counter of operation ids does not wrap. Allocation failures, cancelled tasks (destruction of the event loop) and
    user callbacks which are NULL are left out. The protocol client (adapter) is the environment: it accepts or refuses requests to
    subscribe, unsubscribe and publish, and completes each accepted one at most once, later. Parsing JSON is left to the environment, too. *)
From Verif Require Import Base Split TopicAlias_Model SubSet_Model Topic_Model.

(** ** Vocabulary *)
(** enum aws_mqtt_request_response_operation_type, request_response_client.c:40-43; enum aws_rr_subscription_type, subscription_manager.h:133-136 *)
Inductive kind := REQUEST | STREAM.
Definition kind_eqb (a b : kind) : bool := match a, b with REQUEST, REQUEST | STREAM, STREAM => true | _, _ => false end.
(** enum aws_rr_subscription_pending_action_type, subscription_manager.c:25-29 *)
Inductive pending := NOTHING | SUBSCRIBING | UNSUBSCRIBING.
(** struct aws_rr_subscription_record, subscription_manager.c:54-78; [s_subscribed] is status == ARRSST_SUBSCRIBED *)
Record sub := mksub { s_filter : bytes; s_kind : kind; s_listeners : list N; s_subscribed : bool; s_pending : pending; s_poisoned : bool }.
(** enum aws_rr_subscription_event_type, subscription_manager.h:20-73 *)
Inductive sub_event := SUBSCRIBE_SUCCESS | SUBSCRIBE_FAILURE | SUBSCRIPTION_ENDED | ESTABLISHED | LOST | HALTED | EMPTY | UNSUBSCRIBE_COMPLETE.
(** enum aws_acquire_subscription_result_type, subscription_manager.h:153-183 *)
Inductive acquired := A_SUBSCRIBED | A_SUBSCRIBING | A_BLOCKED | A_NO_CAPACITY | A_FAILURE.
(** the errors AWS_ERROR_MQTT_REQUEST_RESPONSE_* reported to the user *)
Inductive failure := E_SHUT_DOWN | E_TIMEOUT | E_SUBSCRIBE_FAILURE | E_NO_CAPACITY | E_PUBLISH_FAILURE.
(** a parsed JSON value as far as the client looks at it; aws_json_value_get_from_object is the field [get] *)
Inductive json := J_STRING (s : bytes) | J_OBJECT (get : bytes -> option json) | J_OTHER.
(** struct aws_mqtt_request_operation_options: filters to subscribe to; response paths (topic, JSON path of the token); where and what to publish *)
Record request := mkrequest { r_filters : list bytes; r_paths : list (bytes * bytes); r_token : bytes; r_topic : bytes; r_payload : bytes }.
Inductive work := W_REQUEST (r : request) | W_STREAM (f : bytes).
Definition kind_of (w : work) : kind := match w with W_REQUEST _ => REQUEST | W_STREAM _ => STREAM end.
(** request_response_client.c:1336-1352 *)
Definition filters_of (w : work) : list bytes := match w with W_REQUEST r => r_filters r | W_STREAM f => [f] end.
(** enum aws_mqtt_request_response_operation_state, request_response_client.c:45-66 *)
Inductive ostate := S_NONE | S_QUEUED | S_PENDING_SUBSCRIPTION | S_PENDING_RESPONSE | S_PENDING_DESTROY | S_SUBSCRIBED | S_TERMINAL.
(** struct aws_mqtt_rr_client_operation, request_response_client.c:136-189. [o_tracked]: in client->operations; [o_timed]: in
    client->operations_by_timeout; [o_submitting]: the submit task is scheduled; [o_doomed]: the destroy task is scheduled; [o_activated]:
    storage.activated; [o_open]: the user holds a reference (streaming operations; one reference only is modelled) *)
Record op := mkop { o_id : N; o_work : work; o_deadline : N; o_state : ostate; o_pending : N; o_refs : N;
  o_tables : bool; o_tracked : bool; o_timed : bool; o_submitting : bool; o_doomed : bool; o_activated : bool; o_open : bool }.
Definition o_kind (o : op) : kind := kind_of (o_work o).
Definition o_filters (o : op) : list bytes := filters_of (o_work o).
(** what the user is told *)
Inductive result := RESPONSE (topic payload : bytes) | FAILED (e : failure).
Inductive stream_event := S_ESTABLISHED | S_LOST | S_HALTED (e : failure).
(** what happens, newest first. O_: calls of the user's callbacks (O_GONE: a streaming operation's termination callback; for a request it
    only marks that the client has let go of it) and of the protocol client (with its synchronous answer); O_INTAKE: the logged result of
    taking an operation from the queue. I_: what comes in. *)
Inductive out :=
| O_COMPLETE (id : N) (r : result) | O_STATUS (id : N) (e : stream_event) | O_MESSAGE (id : N) (topic payload : bytes) | O_GONE (id : N) | O_TERMINATED
| O_SUBSCRIBE (f : bytes) (ok : bool) | O_UNSUBSCRIBE (f : bytes) (ok : bool) | O_PUBLISH (id : N) (ok : bool) | O_INTAKE (id : N) (r : acquired)
| I_OPERATION (id : N) (w : work) (deadline : N) | I_ACTIVATE (id : N) | I_CLOSE (id : N) | I_QUEUED (id : N)
| I_SUBACK (f : bytes) (ok : bool) | I_UNSUBACK (f : bytes) (ok : bool) | I_CONNECTED (joined : bool) | I_DISCONNECTED
| I_MESSAGE (topic payload : bytes) (j : option json) | I_PUBACK (id : N) (ok : bool) | I_SHUTDOWN | I_TICK (now : N).
(** struct aws_mqtt_request_response_client_options: the limits *)
Record config := mkconfig { cf_max_requests : N; cf_max_streams : N; cf_timeout_s : N }.
(** what the environment contributes to one step: the clock, and the synchronous answers of the protocol client *)
Record env := mkenv { e_now : N; e_sub : bytes -> bool; e_unsub : bytes -> bool; e_pub : N -> bool }.
(** enum aws_request_response_client_state, request_response_client.c:194-204: AWS_RRCS_ACTIVE, AWS_RRCS_SHUTTING_DOWN, and after the termination callback *)
Inductive phase := ACTIVE | DOWN | OVER.
Definition active (p : phase) : bool := match p with ACTIVE => true | _ => false end.
(** struct aws_mqtt_request_response_client, request_response_client.c:233-272, with its subscription manager. [c_events]: the scheduled
    subscription status event tasks; [c_flights]: subscribe (true) and unsubscribe (false) requests accepted by the protocol client and
    not yet completed; [c_publishes]: likewise publishes *)
Record client := mkclient { c_phase : phase; c_connected : bool; c_subs : list sub; c_ops : list op; c_queue : list N; c_streams : list (bytes * list N);
  c_paths : list (bytes * (bytes * N)); c_tokens : list (bytes * N); c_events : list (sub_event * bytes * N); c_flights : list (bool * bytes);
  c_publishes : list N; c_scheduled : N; c_next : N; c_out : list out; c_crash : bool }.

Definition set_phase x s := mkclient x (c_connected s) (c_subs s) (c_ops s) (c_queue s) (c_streams s) (c_paths s) (c_tokens s) (c_events s) (c_flights s) (c_publishes s) (c_scheduled s) (c_next s) (c_out s) (c_crash s).
Definition set_connected x s := mkclient (c_phase s) x (c_subs s) (c_ops s) (c_queue s) (c_streams s) (c_paths s) (c_tokens s) (c_events s) (c_flights s) (c_publishes s) (c_scheduled s) (c_next s) (c_out s) (c_crash s).
Definition set_subs x s := mkclient (c_phase s) (c_connected s) x (c_ops s) (c_queue s) (c_streams s) (c_paths s) (c_tokens s) (c_events s) (c_flights s) (c_publishes s) (c_scheduled s) (c_next s) (c_out s) (c_crash s).
Definition set_ops x s := mkclient (c_phase s) (c_connected s) (c_subs s) x (c_queue s) (c_streams s) (c_paths s) (c_tokens s) (c_events s) (c_flights s) (c_publishes s) (c_scheduled s) (c_next s) (c_out s) (c_crash s).
Definition set_queue x s := mkclient (c_phase s) (c_connected s) (c_subs s) (c_ops s) x (c_streams s) (c_paths s) (c_tokens s) (c_events s) (c_flights s) (c_publishes s) (c_scheduled s) (c_next s) (c_out s) (c_crash s).
Definition set_streams x s := mkclient (c_phase s) (c_connected s) (c_subs s) (c_ops s) (c_queue s) x (c_paths s) (c_tokens s) (c_events s) (c_flights s) (c_publishes s) (c_scheduled s) (c_next s) (c_out s) (c_crash s).
Definition set_paths x s := mkclient (c_phase s) (c_connected s) (c_subs s) (c_ops s) (c_queue s) (c_streams s) x (c_tokens s) (c_events s) (c_flights s) (c_publishes s) (c_scheduled s) (c_next s) (c_out s) (c_crash s).
Definition set_tokens x s := mkclient (c_phase s) (c_connected s) (c_subs s) (c_ops s) (c_queue s) (c_streams s) (c_paths s) x (c_events s) (c_flights s) (c_publishes s) (c_scheduled s) (c_next s) (c_out s) (c_crash s).
Definition set_events x s := mkclient (c_phase s) (c_connected s) (c_subs s) (c_ops s) (c_queue s) (c_streams s) (c_paths s) (c_tokens s) x (c_flights s) (c_publishes s) (c_scheduled s) (c_next s) (c_out s) (c_crash s).
Definition set_flights x s := mkclient (c_phase s) (c_connected s) (c_subs s) (c_ops s) (c_queue s) (c_streams s) (c_paths s) (c_tokens s) (c_events s) x (c_publishes s) (c_scheduled s) (c_next s) (c_out s) (c_crash s).
Definition set_publishes x s := mkclient (c_phase s) (c_connected s) (c_subs s) (c_ops s) (c_queue s) (c_streams s) (c_paths s) (c_tokens s) (c_events s) (c_flights s) x (c_scheduled s) (c_next s) (c_out s) (c_crash s).
Definition set_scheduled x s := mkclient (c_phase s) (c_connected s) (c_subs s) (c_ops s) (c_queue s) (c_streams s) (c_paths s) (c_tokens s) (c_events s) (c_flights s) (c_publishes s) x (c_next s) (c_out s) (c_crash s).
Definition set_next x s := mkclient (c_phase s) (c_connected s) (c_subs s) (c_ops s) (c_queue s) (c_streams s) (c_paths s) (c_tokens s) (c_events s) (c_flights s) (c_publishes s) (c_scheduled s) x (c_out s) (c_crash s).
Definition emit x s := mkclient (c_phase s) (c_connected s) (c_subs s) (c_ops s) (c_queue s) (c_streams s) (c_paths s) (c_tokens s) (c_events s) (c_flights s) (c_publishes s) (c_scheduled s) (c_next s) (x :: c_out s) (c_crash s).
(** a failed AWS_FATAL_ASSERT, or an access to the wrong member of the union [storage] *)
Definition crash s := mkclient (c_phase s) (c_connected s) (c_subs s) (c_ops s) (c_queue s) (c_streams s) (c_paths s) (c_tokens s) (c_events s) (c_flights s) (c_publishes s) (c_scheduled s) (c_next s) (c_out s) true.

Definition set_state x o := mkop (o_id o) (o_work o) (o_deadline o) x (o_pending o) (o_refs o) (o_tables o) (o_tracked o) (o_timed o) (o_submitting o) (o_doomed o) (o_activated o) (o_open o).
Definition set_pending x o := mkop (o_id o) (o_work o) (o_deadline o) (o_state o) x (o_refs o) (o_tables o) (o_tracked o) (o_timed o) (o_submitting o) (o_doomed o) (o_activated o) (o_open o).
Definition set_refs x o := mkop (o_id o) (o_work o) (o_deadline o) (o_state o) (o_pending o) x (o_tables o) (o_tracked o) (o_timed o) (o_submitting o) (o_doomed o) (o_activated o) (o_open o).
Definition set_tables x o := mkop (o_id o) (o_work o) (o_deadline o) (o_state o) (o_pending o) (o_refs o) x (o_tracked o) (o_timed o) (o_submitting o) (o_doomed o) (o_activated o) (o_open o).
Definition set_tracked x o := mkop (o_id o) (o_work o) (o_deadline o) (o_state o) (o_pending o) (o_refs o) (o_tables o) x (o_timed o) (o_submitting o) (o_doomed o) (o_activated o) (o_open o).
Definition set_timed x o := mkop (o_id o) (o_work o) (o_deadline o) (o_state o) (o_pending o) (o_refs o) (o_tables o) (o_tracked o) x (o_submitting o) (o_doomed o) (o_activated o) (o_open o).
Definition set_submitting x o := mkop (o_id o) (o_work o) (o_deadline o) (o_state o) (o_pending o) (o_refs o) (o_tables o) (o_tracked o) (o_timed o) x (o_doomed o) (o_activated o) (o_open o).
Definition set_doomed x o := mkop (o_id o) (o_work o) (o_deadline o) (o_state o) (o_pending o) (o_refs o) (o_tables o) (o_tracked o) (o_timed o) (o_submitting o) x (o_activated o) (o_open o).
Definition set_activated x o := mkop (o_id o) (o_work o) (o_deadline o) (o_state o) (o_pending o) (o_refs o) (o_tables o) (o_tracked o) (o_timed o) (o_submitting o) (o_doomed o) x (o_open o).
Definition set_open x o := mkop (o_id o) (o_work o) (o_deadline o) (o_state o) (o_pending o) (o_refs o) (o_tables o) (o_tracked o) (o_timed o) (o_submitting o) (o_doomed o) (o_activated o) x.

Definition has_id (id : N) (o : op) : bool := N.eqb id (o_id o).
(** operations by id: memory, and the hash table client->operations *)
Definition get_op (id : N) (s : client) : option op := find (has_id id) (c_ops s).
Definition tracked (id : N) (s : client) : option op := match get_op id s with Some o => if o_tracked o then Some o else None | None => None end.
Definition upd_op (id : N) (g : op -> op) (s : client) : client := set_ops (map (fun o => if has_id id o then g o else o) (c_ops s)) s.
(** s_get_subscription_record, subscription_manager.c:176-191 *)
Definition for_filter (f : bytes) (r : sub) : bool := bytes_eqb f (s_filter r).
Definition get_sub (f : bytes) (s : client) : option sub := find (for_filter f) (c_subs s).
Definition upd_sub (f : bytes) (g : sub -> sub) (s : client) : client := set_subs (map (fun r => if for_filter f r then g r else r) (c_subs s)) s.
Definition drop_sub (f : bytes) (s : client) : client := set_subs (filter (fun r => negb (for_filter f r)) (c_subs s)) s.
Definition with_listeners l r := mksub (s_filter r) (s_kind r) l (s_subscribed r) (s_pending r) (s_poisoned r).
Definition with_subscribed b r := mksub (s_filter r) (s_kind r) (s_listeners r) b (s_pending r) (s_poisoned r).
Definition with_pending p r := mksub (s_filter r) (s_kind r) (s_listeners r) (s_subscribed r) p (s_poisoned r).
Definition poisoned r := mksub (s_filter r) (s_kind r) (s_listeners r) (s_subscribed r) (s_pending r) true.
Definition is_pending (p : pending) (r : sub) : bool := match p, s_pending r with NOTHING, NOTHING | SUBSCRIBING, SUBSCRIBING | UNSUBSCRIBING, UNSUBSCRIBING => true | _, _ => false end.

(** ** The life of an operation *)
(** aws_mqtt_rr_client_operation_release, request_response_client.c:2122-2129, with s_on_mqtt_rr_client_operation_zero_ref_count, :1791-1795.
    The reference count is an unsigned 64-bit integer; its underflow is an assertion in debug builds only. *)
Definition unref (o : op) : op :=
  let o' := set_refs (if o_refs o =? 0 then two64 - 1 else o_refs o - 1) o in
  if o_refs o =? 1 then set_doomed true o' else o'.
Definition release (id : N) (s : client) : client := upd_op id unref s.
Definition state_is (x : ostate) (o : op) : bool :=
  match x, o_state o with S_NONE, S_NONE | S_QUEUED, S_QUEUED | S_PENDING_SUBSCRIPTION, S_PENDING_SUBSCRIPTION | S_PENDING_RESPONSE, S_PENDING_RESPONSE
  | S_PENDING_DESTROY, S_PENDING_DESTROY | S_SUBSCRIBED, S_SUBSCRIBED | S_TERMINAL, S_TERMINAL => true | _, _ => false end.
(** s_complete_request_operation_with_failure, request_response_client.c:357-387; s_complete_operation_with_correlation_token, :896-927 (with a response) *)
Definition complete (o : op) (r : result) (s : client) : client :=
  match o_kind o with
  | STREAM => crash s
  | REQUEST => if state_is S_PENDING_DESTROY o then s
               else release (o_id o) (upd_op (o_id o) (set_state S_PENDING_DESTROY) (emit (O_COMPLETE (o_id o) r) s))
  end.
(** s_halt_streaming_operation_with_failure, request_response_client.c:402-422 *)
Definition halt (o : op) (e : failure) (s : client) : client :=
  match o_kind o with
  | REQUEST => crash s
  | STREAM => if state_is S_PENDING_DESTROY o || state_is S_TERMINAL o then s
              else upd_op (o_id o) (set_state S_TERMINAL) (emit (O_STATUS (o_id o) (S_HALTED e)) s)
  end.
(** s_request_response_fail_operation, request_response_client.c:424-430 *)
Definition fail (id : N) (e : failure) (s : client) : client :=
  match get_op id s with None => s | Some o => match o_kind o with STREAM => halt o e s | REQUEST => complete o (FAILED e) s end end.
(** s_mqtt_request_response_client_wake_service, request_response_client.c:487-509 *)
Definition wake (now : N) (s : client) : client :=
  if active (c_phase s) then if (c_scheduled s =? 0) || (now <? c_scheduled s) then set_scheduled now s else s else s.

(** ** The subscription manager *)
(** manager->config.subscription_status_callback: s_aws_rr_client_subscription_status_event_callback, request_response_client.c:757-781 *)
Definition status (e : sub_event) (f : bytes) (id : N) (s : client) : client :=
  if active (c_phase s) then set_events (c_events s ++ [(e, f, id)]) s else crash s.
(** s_emit_subscription_event, subscription_manager.c:359-388. Its assertion compares the kind of the event with that of the record, which is
    obvious at each of its calls. *)
Definition notify (e : sub_event) (r : sub) (s : client) : client := fold_left (fun s id => status e (s_filter r) id s) (s_listeners r) s.
(** s_subscription_record_unsubscribe, subscription_manager.c:112-161 *)
Definition unsubscribe (ev : env) (shutdown : bool) (f : bytes) (s : client) : client :=
  match get_sub f s with
  | None => s
  | Some r =>
    if (s_subscribed r && negb (is_pending UNSUBSCRIBING r)) || (shutdown && is_pending SUBSCRIBING r) then
      if e_unsub ev f then upd_sub f (with_pending UNSUBSCRIBING) (set_flights (c_flights s ++ [(false, f)]) (emit (O_UNSUBSCRIBE f true) s))
      else emit (O_UNSUBSCRIBE f false) s
    else s
  end.
(** s_rr_subscription_purge_unused_subscriptions_wrapper, subscription_manager.c:285-312 *)
Definition purge_one (ev : env) (s : client) (f : bytes) : client :=
  match get_sub f s with
  | None => s
  | Some r =>
    match s_listeners r with
    | _ :: _ => s
    | [] =>
      let s1 := if c_connected s then unsubscribe ev false f s else s in
      match get_sub f s1 with
      | None => s1
      | Some r1 => if negb (s_subscribed r1) && is_pending NOTHING r1 then drop_sub f s1 else s1
      end
    end
  end.
(** aws_rr_subscription_manager_purge_unused, subscription_manager.c:314-318 *)
Definition purge (ev : env) (s : client) : client := fold_left (purge_one ev) (map s_filter (c_subs s)) s.
(** s_rr_activate_idle_subscription, subscription_manager.c:390-446; the result is false for AWS_OP_ERR *)
Definition activate (ev : env) (f : bytes) (s : client) : bool * client :=
  match get_sub f s with
  | None => (true, s)
  | Some r =>
    if s_poisoned r then (true, s) else
    if c_connected s && negb (match s_listeners r with [] => true | _ => false end) && negb (s_subscribed r) && is_pending NOTHING r then
      if e_sub ev f then (true, upd_sub f (with_pending SUBSCRIBING) (set_flights (c_flights s ++ [(true, f)]) (emit (O_SUBSCRIBE f true) s)))
      else (false, match s_kind r with
                   | REQUEST => notify SUBSCRIBE_FAILURE r (emit (O_SUBSCRIBE f false) s)
                   | STREAM => notify HALTED r (upd_sub f poisoned (emit (O_SUBSCRIBE f false) s))
                   end)
    else (true, s)
  end.
(** s_get_subscription_stats, subscription_manager.c:199-233 *)
Definition records (k : kind) (s : client) : list sub := filter (fun r => kind_eqb k (s_kind r)) (c_subs s).
(** the first half of aws_rr_subscription_manager_acquire_subscription, subscription_manager.c:448-553: whether the filters can be had. None: yes.
    The difference in line 527 is unsigned. *)
Definition refuses (cf : config) (k : kind) (fs : list bytes) (s : client) : option acquired :=
  let bad f := match get_sub f s with Some r => s_poisoned r || negb (kind_eqb (s_kind r) k) | None => false end in
  let leaving f := match get_sub f s with Some r => is_pending UNSUBSCRIBING r | None => false end in
  let absent f := match get_sub f s with Some _ => false | None => true end in
  let needed := len (filter absent fs) in
  let used := len (records k s) in
  match fs with [] => Some A_FAILURE | _ =>
  if existsb bad fs then Some A_FAILURE else
  if existsb leaving fs then Some A_BLOCKED else
  if needed =? 0 then None else
  match k with
  | REQUEST => if (cf_max_requests cf + two64 - used) mod two64 <? needed then Some A_BLOCKED else None
  | STREAM => if cf_max_streams cf <? needed + used then
                if needed + used <=? cf_max_streams cf + len (filter (is_pending UNSUBSCRIBING) (records STREAM s)) then Some A_BLOCKED else Some A_NO_CAPACITY
              else None
  end end.
(** s_add_listener_to_subscription_record with s_aws_rr_subscription_new, subscription_manager.c:87-110, 268-283, 555-570 *)
Definition listen (k : kind) (id : N) (s : client) (f : bytes) : client :=
  let s1 := match get_sub f s with Some _ => s | None => set_subs (c_subs s ++ [mksub f k [] false NOTHING false]) s end in
  upd_sub f (fun r => with_listeners (if existsb (N.eqb id) (s_listeners r) then s_listeners r else s_listeners r ++ [id]) r) s1.
Fixpoint activate_all (ev : env) (fs : list bytes) (s : client) : bool * client :=
  match fs with
  | [] => (true, s)
  | f :: fs => let '(ok, s1) := activate ev f s in if ok then activate_all ev fs s1 else (false, s1)
  end.
(** the second half, subscription_manager.c:555-602 *)
Definition acquire (cf : config) (ev : env) (k : kind) (fs : list bytes) (id : N) (s : client) : acquired * client :=
  match refuses cf k fs s with
  | Some a => (a, s)
  | None =>
    let s1 := fold_left (listen k id) fs s in
    if forallb (fun f => match get_sub f s1 with Some r => s_subscribed r | None => false end) fs then (A_SUBSCRIBED, s1)
    else let '(ok, s2) := activate_all ev fs s1 in (if ok then A_SUBSCRIBING else A_FAILURE, s2)
  end.
(** s_remove_listener_from_subscription_record, subscription_manager.c:235-266 *)
Definition unlisten (id : N) (s : client) (f : bytes) : client :=
  match get_sub f s with
  | None => s
  | Some r =>
    let l := filter (fun i => negb (N.eqb id i)) (s_listeners r) in
    let s1 := upd_sub f (with_listeners l) s in
    match l with [] => status EMPTY f 0 s1 | _ => s1 end
  end.
(** s_handle_protocol_adapter_request_subscription_event, ..._streaming_..., aws_rr_subscription_manager_on_protocol_adapter_subscription_event,
    subscription_manager.c:613-719: a SUBSCRIBE has been completed *)
Definition on_suback (ev : env) (f : bytes) (ok retryable : bool) (s : client) : client :=
  match get_sub f s with
  | None => s
  | Some r =>
    if negb (is_pending SUBSCRIBING r) then crash s else
    let s1 := upd_sub f (with_pending NOTHING) s in
    match s_kind r with
    | REQUEST => if ok then notify SUBSCRIBE_SUCCESS r (upd_sub f (with_subscribed true) s1) else notify SUBSCRIBE_FAILURE r s1
    | STREAM => if ok then notify ESTABLISHED r (upd_sub f (with_subscribed true) s1)
                else if retryable then snd (activate ev f s1) else notify HALTED r (upd_sub f poisoned s1)
    end
  end.
(** ... an UNSUBSCRIBE has been completed *)
Definition on_unsuback (f : bytes) (ok : bool) (s : client) : client :=
  match get_sub f s with
  | None => s
  | Some r =>
    if negb (is_pending UNSUBSCRIBING r) then crash s else
    let s1 := upd_sub f (with_pending NOTHING) s in
    if ok then status UNSUBSCRIBE_COMPLETE f 0 (upd_sub f (with_subscribed false) s1) else s1
  end.
(** s_apply_session_lost_wrapper, subscription_manager.c:736-756 *)
Definition lose_one (s : client) (f : bytes) : client :=
  match get_sub f s with
  | None => s
  | Some r =>
    if s_subscribed r then
      let s1 := upd_sub f (with_subscribed false) s in
      match s_kind r with
      | REQUEST => let s2 := notify SUBSCRIPTION_ENDED r s1 in if is_pending UNSUBSCRIBING r then s2 else drop_sub f s2
      | STREAM => notify LOST r s1
      end
    else s
  end.
(** s_apply_streaming_resubscribe_wrapper and s_rr_activate_idle_subscriptions_wrapper, subscription_manager.c:721-734, 758-767 *)
Definition activate_one (ev : env) (s : client) (f : bytes) : client := snd (activate ev f s).
Definition resubscribe_one (ev : env) (s : client) (f : bytes) : client :=
  match get_sub f s with Some r => match s_kind r with STREAM => snd (activate ev f s) | REQUEST => s end | None => s end.
(** aws_rr_subscription_manager_on_protocol_adapter_connection_event, subscription_manager.c:769-801 *)
Definition on_connected (ev : env) (joined : bool) (s : client) : client :=
  let s0 := set_connected true s in
  let s1 := if joined then s0
            else let s1 := fold_left lose_one (map s_filter (c_subs s0)) s0 in fold_left (resubscribe_one ev) (map s_filter (c_subs s1)) s1 in
  let s2 := purge ev s1 in
  fold_left (activate_one ev) (map s_filter (c_subs s2)) s2.
(** aws_rr_subscription_manager_clean_up, subscription_manager.c:163-174, 837-840 *)
Definition clean_up_one (ev : env) (s : client) (f : bytes) : client := drop_sub f (unsubscribe ev true f s).
Definition clean_up (ev : env) (s : client) : client := fold_left (clean_up_one ev) (map s_filter (c_subs s)) s.

(** ** Requests and streams *)
(** s_make_mqtt_request, request_response_client.c:557-600 *)
Definition make_request (ev : env) (o : op) (s : client) : client :=
  match o_kind o with
  | STREAM => crash s
  | REQUEST => if e_pub ev (o_id o) then set_publishes (c_publishes s ++ [o_id o]) (emit (O_PUBLISH (o_id o) true) s)
               else let s1 := emit (O_PUBLISH (o_id o) false) s in
                    match get_op (o_id o) s1 with Some o' => complete o' (FAILED E_PUBLISH_FAILURE) s1 | None => s1 end
  end.
(** s_on_request_publish_completion, request_response_client.c:530-555 *)
Definition on_puback (id : N) (ok : bool) (s : client) : client :=
  if ok then s else match tracked id s with Some o => complete o (FAILED E_PUBLISH_FAILURE) s | None => s end.
(** s_handle_subscription_status_event_task, request_response_client.c:625-735 *)
Definition on_status (ev : env) (e : sub_event) (id : N) (s : client) : client :=
  match e with
  | EMPTY | UNSUBSCRIBE_COMPLETE => wake (e_now ev) s
  | _ =>
    match tracked id s with
    | None => s
    | Some o =>
      match e with
      | SUBSCRIBE_FAILURE | SUBSCRIPTION_ENDED => complete o (FAILED E_SUBSCRIBE_FAILURE) s
      | SUBSCRIBE_SUCCESS =>
        if state_is S_PENDING_SUBSCRIPTION o then
          let p := if o_pending o =? 0 then two64 - 1 else o_pending o - 1 in
          let s1 := upd_op id (set_pending p) s in
          if p =? 0 then make_request ev o (upd_op id (set_state S_PENDING_RESPONSE) s1) else s1
        else s
      | ESTABLISHED =>
        match o_kind o with
        | REQUEST => crash s
        | STREAM => emit (O_STATUS id S_ESTABLISHED) (if state_is S_PENDING_SUBSCRIPTION o then upd_op id (set_state S_SUBSCRIBED) s else s)
        end
      | LOST => match o_kind o with REQUEST => crash s | STREAM => emit (O_STATUS id S_LOST) s end
      | HALTED => halt o E_SUBSCRIBE_FAILURE s
      | _ => s
      end
    end
  end.
(** aws_mqtt_request_response_client_subscriptions_add_request_subscription, request_response_subscription_set.c:173-198 *)
Definition add_path (s : client) (p : bytes * bytes) : client :=
  match find_key (fst p) (c_paths s) with
  | Some (j, n) => set_paths (put_key (fst p) (j, n + 1) (c_paths s)) s
  | None => set_paths (put_key (fst p) (snd p, 1) (c_paths s)) s
  end.
(** aws_mqtt_request_response_client_subscriptions_remove_request_subscription, request_response_subscription_set.c:200-222 *)
Definition drop_path (s : client) (p : bytes * bytes) : client :=
  match find_key (fst p) (c_paths s) with
  | Some (j, n) => set_paths (if n =? 1 then remove_key (fst p) (c_paths s) else put_key (fst p) (j, n - 1) (c_paths s)) s
  | None => s
  end.
(** s_add_in_progress_operation_to_tracking_tables, request_response_client.c:1186-1263 *)
Definition add_tables (o : op) (s : client) : client :=
  let s1 := match o_work o with
            | W_STREAM f => set_streams (match find_key f (c_streams s) with
                                         | Some _ => map (fun e => if bytes_eqb f (fst e) then (fst e, snd e ++ [o_id o]) else e) (c_streams s)
                                         | None => c_streams s ++ [(f, [o_id o])] end) s
            | W_REQUEST r => let s1 := fold_left add_path (r_paths r) s in set_tokens (put_key (r_token r) (o_id o) (c_tokens s1)) s1
            end in
  upd_op (o_id o) (set_tables true) s1.
(** s_handle_operation_subscribe_result, request_response_client.c:1265-1297 *)
Definition on_acquired (ev : env) (o : op) (a : acquired) (s : client) : client :=
  match a with
  | A_FAILURE | A_BLOCKED => fail (o_id o) E_SUBSCRIBE_FAILURE s
  | A_NO_CAPACITY => fail (o_id o) E_NO_CAPACITY s
  | A_SUBSCRIBING => upd_op (o_id o) (set_state S_PENDING_SUBSCRIPTION) (add_tables o s)
  | A_SUBSCRIBED =>
    let s1 := add_tables o s in
    match o_kind o with
    | STREAM => emit (O_STATUS (o_id o) S_ESTABLISHED) (upd_op (o_id o) (set_state S_SUBSCRIBED) s1)
    | REQUEST => make_request ev o s1
    end
  end.
(** s_can_operation_dequeue, request_response_client.c:1308-1325 *)
Definition can_dequeue (o : op) (s : client) : bool :=
  match o_work o with W_STREAM _ => true | W_REQUEST r => match find_key (r_token r) (c_tokens s) with None => true | Some _ => false end end.
(** the loop of s_process_queued_operations, request_response_client.c:1354-1394 *)
Fixpoint intake (fuel : nat) (cf : config) (ev : env) (s : client) : client :=
  match fuel with
  | O => s
  | S fuel =>
    match c_queue s with
    | [] => s
    | id :: _ =>
      match get_op id s with
      | None => s
      | Some o =>
        if can_dequeue o s then
          let '(a, s1) := acquire cf ev (o_kind o) (o_filters o) id s in
          match a with
          | A_BLOCKED => s1
          | _ => intake fuel cf ev (on_acquired ev o a (emit (O_INTAKE id a) (set_queue (tl (c_queue s1)) s1)))
          end
        else s
      end
    end
  end.
(** the top of client->operations_by_timeout *)
Definition earlier (a b : option op) : option op :=
  match a, b with Some x, Some y => if o_deadline y <? o_deadline x then b else a | None, _ => b | _, None => a end.
Definition earliest (l : list op) : option op := fold_left (fun a o => earlier a (Some o)) (filter o_timed l) None.
(** s_check_for_operation_timeouts, request_response_client.c:1145-1172 *)
Fixpoint check_timeouts (fuel : nat) (now : N) (s : client) : client :=
  match fuel with
  | O => s
  | S fuel =>
    match earliest (c_ops s) with
    | None => s
    | Some o => if now <? o_deadline o then s else check_timeouts fuel now (fail (o_id o) E_TIMEOUT (upd_op (o_id o) (set_timed false) s))
    end
  end.
(** s_mqtt_request_response_service_task_fn, request_response_client.c:1396-1427, with s_mqtt_request_response_client_get_next_service_time, :1174-1186 *)
Definition service (cf : config) (ev : env) (s : client) : client :=
  let s0 := set_scheduled 0 s in
  if active (c_phase s) then
    let s1 := check_timeouts (length (c_ops s0)) (e_now ev) s0 in
    let s2 := purge ev s1 in
    let s3 := intake (length (c_queue s2)) cf ev s2 in
    set_scheduled (match earliest (c_ops s3) with Some o => o_deadline o | None => two64 - 1 end) s3
  else s0.

(** *** Messages *)
(** s_is_topic_filter_with_wildcard, request_response_subscription_set.c:140-143 *)
Definition has_wildcard (f : bytes) : bool := existsb (N.eqb 43) f || existsb (N.eqb 35) f.
(** s_is_topic_matched_to_subscription, request_response_subscription_set.c:240-277, on the levels of filter and topic *)
Fixpoint match_levels (fs ts : list bytes) : bool :=
  match fs, ts with
  | [], [] => true
  | [], _ :: _ => false
  | _ :: _, [] => false
  | f :: fs, t :: ts => if bytes_eqb f [35] then true else if negb (bytes_eqb f [43]) && negb (bytes_eqb t f) then false else match_levels fs ts
  end.
Definition topic_matched (topic f : bytes) : bool := match_levels (split 47 f) (split 47 topic).
(** s_apply_publish_to_streaming_operation_list, request_response_client.c:797-842 *)
Definition deliver (topic payload : bytes) (s : client) (id : N) : client :=
  match get_op id s with
  | None => s
  | Some o => match o_kind o with
              | REQUEST => s
              | STREAM => if state_is S_PENDING_DESTROY o || state_is S_TERMINAL o then s else emit (O_MESSAGE id topic payload) s
              end
  end.
(** the loop over the segments of the path in s_apply_publish_to_response_path_entry, request_response_client.c:957-984 *)
Fixpoint walk (path : list bytes) (j : json) : option json :=
  match path with
  | [] => Some j
  | x :: path => match j with J_OBJECT get => match get x with Some j => walk path j | None => None end | _ => None end
  end.
(** the correlation token of a message, request_response_client.c:929-1010 *)
Definition token_in (path : bytes) (j : option json) : option bytes :=
  match path with
  | [] => Some []
  | _ => match j with None => None | Some j => match walk (split 46 path) j with Some (J_STRING t) => Some t | _ => None end end
  end.
(** aws_mqtt_request_response_client_subscriptions_handle_incoming_publish, request_response_subscription_set.c:306-336, with
    s_aws_rr_client_protocol_adapter_incoming_publish_callback *)
Definition on_message (topic payload : bytes) (j : option json) (s : client) : client :=
  let s1 := match find_key topic (filter (fun e => negb (has_wildcard (fst e))) (c_streams s)) with Some l => fold_left (deliver topic payload) l s | None => s end in
  let s2 := fold_left (fun s e => if topic_matched topic (fst e) then fold_left (deliver topic payload) (snd e) s else s)
                      (filter (fun e => has_wildcard (fst e)) (c_streams s)) s1 in
  match find_key topic (c_paths s2) with
  | None => s2
  | Some (path, _) =>
    match token_in path j with
    | None => s2
    | Some t => match find_key t (c_tokens s2) with
                | None => s2
                | Some id => match get_op id s2 with Some o => complete o (RESPONSE topic payload) s2 | None => s2 end
                end
    end
  end.

(** *** Beginning and end *)
(** s_are_request_operation_options_valid, s_are_streaming_operation_options_valid, request_response_client.c:1537-1623 *)
Definition is_nil {A} (l : list A) : bool := match l with [] => true | _ => false end.
Definition valid_work (w : work) : bool :=
  match w with
  | W_REQUEST r => negb (is_nil (r_paths r)) && forallb (fun p => is_valid_topic (fst p)) (r_paths r) && is_valid_topic (r_topic r) &&
                   negb (is_nil (r_filters r)) && forallb is_valid_topic_filter (r_filters r) && negb (is_nil (r_payload r))
  | W_STREAM f => is_valid_topic_filter f
  end.
(** aws_mqtt_request_response_client_submit_request, request_response_client.c:1957-2012; aws_mqtt_request_response_client_create_streaming_operation, :2047-2085.
    The deadline is a sum in 64 bits. *)
Definition create (cf : config) (now : N) (w : work) (s : client) : client :=
  if valid_work w then
    let d := match w with W_REQUEST _ => (now + cf_timeout_s cf * 1000000000) mod two64 | W_STREAM _ => two64 - 1 end in
    let req := match w with W_REQUEST _ => true | W_STREAM _ => false end in
    let o := mkop (c_next s) w d S_NONE (len (filters_of w)) (if req then 2 else 1) false false false req false req (negb req) in
    emit (I_OPERATION (c_next s) w d) (set_next (c_next s + 1) (set_ops (c_ops s ++ [o]) s))
  else s.
(** aws_mqtt_rr_client_operation_activate, request_response_client.c:2087-2111 *)
Definition activate_stream (id : N) (s : client) : client :=
  upd_op id (fun o => set_submitting true (set_refs (o_refs o + 1) (set_activated true o))) (emit (I_ACTIVATE id) s).
(** s_mqtt_rr_client_submit_operation, request_response_client.c:1630-1683 *)
Definition submit (now : N) (id : N) (s : client) : client :=
  let s0 := upd_op id (set_submitting false) s in
  release id
    (if active (c_phase s) then
       wake now (emit (I_QUEUED id) (upd_op id (set_state S_QUEUED) (set_queue (c_queue s0 ++ [id])
         (upd_op id (fun o => set_timed (match o_kind o with REQUEST => true | STREAM => false end) (set_tracked true o)) s0))))
     else fail id E_SHUT_DOWN s0).
(** s_mqtt_rr_client_destroy_operation with s_remove_operation_from_client_tables, request_response_client.c:1696-1789 *)
Definition destroy (o : op) (s : client) : client :=
  let s0 := set_ops (filter (fun x => negb (has_id (o_id o) x)) (c_ops s)) s in
  let not_me := fun i => negb (N.eqb (o_id o) i) in
  let s1 := set_streams (map (fun e => (fst e, filter not_me (snd e))) (c_streams s0)) (set_queue (filter not_me (c_queue s0)) s0) in
  let s2 := if active (c_phase s) then fold_left (unlisten (o_id o)) (o_filters o) s1 else s1 in
  let s3 := match o_work o with
            | W_STREAM _ => s2
            | W_REQUEST r => if o_tables o then fold_left drop_path (r_paths r) (set_tokens (remove_key (r_token r) (c_tokens s2)) s2) else s2
            end in
  emit (O_GONE (o_id o)) s3.
(** s_mqtt_request_response_client_external_shutdown_task_fn, request_response_client.c:441-485 *)
Definition shutdown (ev : env) (s : client) : client :=
  let s1 := clean_up ev (set_scheduled 0 (set_phase DOWN (emit I_SHUTDOWN s))) in
  fold_left (fun s id => fail id E_SHUT_DOWN s) (map o_id (filter o_tracked (c_ops s1))) s1.

(** ** Events *)
Inductive event :=
| ERequest (r : request) | EStream (f : bytes) | EActivate (id : N) | EClose (id : N)      (* API *)
| ESubmit (id : N) | EService | EDestroy (id : N) | EStatus | EShutdown | ETerminate        (* tasks *)
| ESuback (f : bytes) (ok retryable : bool) | EUnsuback (f : bytes) (ok : bool) | EPuback (id : N) (ok : bool)  (* completions from the protocol client *)
| EConnected (joined : bool) | EDisconnected | EMessage (topic payload : bytes) (j : option json)               (* events from the protocol client *)
| ESwapSubs (n : nat) | ESwapListeners (f : bytes) (n : nat) | ESwapOps (n : nat) | ESwapStreams (n : nat).      (* a hash table may be walked through in any order *)
Definition flight_eqb (a b : bool * bytes) : bool := Bool.eqb (fst a) (fst b) && bytes_eqb (snd a) (snd b).
Fixpoint remove_first {A} (eqb : A -> A -> bool) (x : A) (l : list A) : list A :=
  match l with [] => [] | y :: l => if eqb x y then l else y :: remove_first eqb x l end.
Fixpoint swap {A} (n : nat) (l : list A) : list A :=
  match n, l with O, a :: b :: l => b :: a :: l | S n, a :: l => a :: swap n l | _, _ => l end.
(** what can happen: the user may call the API while they hold the reference in question; tasks which are scheduled; completions of what the
    protocol client has accepted. Requests' submit tasks run before the shutdown task, which is scheduled when the user drops the last reference to
    the client (request_response_client.c:463-474). The client terminates when nothing holds an internal reference any more. *)
Definition enabled (ev : env) (e : event) (s : client) : bool :=
  match e with
  | ERequest _ | EStream _ => active (c_phase s)
  | EActivate id => match get_op id s with Some o => kind_eqb (o_kind o) STREAM && o_open o && negb (o_activated o) | None => false end
  | EClose id => match get_op id s with Some o => kind_eqb (o_kind o) STREAM && o_open o | None => false end
  | ESubmit id => match get_op id s with Some o => o_submitting o | None => false end
  | EService => (0 <? c_scheduled s) && (c_scheduled s <=? e_now ev)
  | EDestroy id => match get_op id s with Some o => o_doomed o | None => false end
  | EStatus => negb (is_nil (c_events s))
  | EShutdown => active (c_phase s) && forallb (fun o => negb (o_submitting o && kind_eqb (o_kind o) REQUEST)) (c_ops s)
  | ETerminate => match c_phase s with DOWN => is_nil (c_ops s) && is_nil (c_events s) && is_nil (c_publishes s) | _ => false end
  | ESuback f _ _ => existsb (flight_eqb (true, f)) (c_flights s)
  | EUnsuback f _ => existsb (flight_eqb (false, f)) (c_flights s)
  | EPuback id _ => existsb (N.eqb id) (c_publishes s)
  | EConnected _ | EDisconnected | EMessage _ _ _ => active (c_phase s)
  | ESwapSubs _ | ESwapListeners _ _ | ESwapOps _ | ESwapStreams _ => true
  end.
Definition handle (cf : config) (ev : env) (e : event) (s : client) : client :=
  match e with
  | ERequest r => create cf (e_now ev) (W_REQUEST r) s
  | EStream f => create cf (e_now ev) (W_STREAM f) s
  | EActivate id => activate_stream id s
  | EClose id => release id (upd_op id (set_open false) (emit (I_CLOSE id) s))
  | ESubmit id => submit (e_now ev) id s
  | EService => service cf ev s
  | EDestroy id => match get_op id s with Some o => destroy o s | None => s end
  | EStatus => match c_events s with [] => s | (e, f, id) :: l => on_status ev e id (set_events l s) end
  | EShutdown => shutdown ev s
  | ETerminate => set_phase OVER (emit O_TERMINATED s)
  | ESuback f ok retryable =>
    let s1 := emit (I_SUBACK f ok) (set_flights (remove_first flight_eqb (true, f) (c_flights s)) s) in
    if active (c_phase s) then on_suback ev f ok retryable s1 else s1
  | EUnsuback f ok =>
    let s1 := emit (I_UNSUBACK f ok) (set_flights (remove_first flight_eqb (false, f) (c_flights s)) s) in
    if active (c_phase s) then on_unsuback f ok s1 else s1
  | EPuback id ok => on_puback id ok (emit (I_PUBACK id ok) (set_publishes (remove_first N.eqb id (c_publishes s)) s))
  | EConnected joined => on_connected ev joined (emit (I_CONNECTED joined) s)
  | EDisconnected => set_connected false (emit I_DISCONNECTED s)
  | EMessage topic payload j => on_message topic payload j (emit (I_MESSAGE topic payload j) s)
  | ESwapSubs n => set_subs (swap n (c_subs s)) s
  | ESwapListeners f n => upd_sub f (fun r => with_listeners (swap n (s_listeners r)) r) s
  | ESwapOps n => set_ops (swap n (c_ops s)) s
  | ESwapStreams n => set_streams (swap n (c_streams s)) s
  end.
Definition step (cf : config) (s : client) (x : env * event) : client :=
  if c_crash s then s else if enabled (fst x) (snd x) s then handle cf (fst x) (snd x) (emit (I_TICK (e_now (fst x))) s) else s.
(** the client after its initialisation task, request_response_client.c:1429-1455; the service task is scheduled for the end of time *)
Definition client_new (connected : bool) : client := mkclient ACTIVE connected [] [] [] [] [] [] [] [] [] (two64 - 1) 1 [] false.
Definition history (cf : config) (connected : bool) (l : list (env * event)) : client := fold_left (step cf) l (client_new connected).
