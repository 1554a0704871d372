(** The handlers of Client5_Model.v as sequences of small guarded updates. Invariants are proved once per update (Client5_Inv*.v); this
    file only says which updates each handler is made of. Nothing here is part of a statement. *)
From Verif Require Import Base BaseLemmas Mqtt5_Views TopicAlias_Model Encoder5_Model Decoder5_Model RateLimiter_Model RateLimiter_Spec
  RateLimiter_Proofs Validate5_Model Negotiated_Model Client5_State Client5_Model Client5_Spec.
From Coq Require Import Permutation.
Ltac Zify.zify_post_hook ::= idtac.

Ltac nrm := cbv beta iota delta [c_ctl c_ops c_man c_flow c_tim c_sta c_neg c_enc c_dec c_alias c_crash c_out set_c_ctl set_c_ops set_c_man set_c_flow set_c_tim set_c_sta set_c_neg set_c_enc set_c_dec set_c_alias set_c_crash set_c_out desired set_desired ct_desired current set_current ct_current life set_life ct_life slot set_slot ct_slot chan set_chan ct_chan clean_err set_clean_err ct_clean_err should_reset set_should_reset ct_should_reset has_conn set_has_conn ct_has_conn in_service set_in_service ct_in_service run_at set_run_at ct_run_at queued set_queued os_queued curop set_curop os_curop wc set_wc os_wc unacked set_unacked os_unacked table set_table os_table pq set_pq os_pq pending set_pending os_pending next_id set_next_id os_next_id outstanding set_outstanding os_outstanding uid set_uid os_uid mp set_mp mn_mp mc set_mc mn_mc mx set_mx mn_mx next_ctl set_next_ctl mn_next_ctl tokens set_tokens fl_tokens pub_rl set_pub_rl fl_pub_rl thr_rl set_thr_rl fl_thr_rl ping set_ping tm_ping ping_to set_ping_to tm_ping_to connack_to set_connack_to tm_connack_to reconnect_at set_reconnect_at tm_reconnect_at reset_at set_reset_at tm_reset_at recount set_recount tm_recount delay set_delay tm_delay inc_n set_inc_n st_inc_n inc_b set_inc_b st_inc_b una_n set_una_n st_una_n una_b set_una_b st_una_b emit fst snd] in *.
Ltac nrmg := cbv beta iota delta [c_ctl c_ops c_man c_flow c_tim c_sta c_neg c_enc c_dec c_alias c_crash c_out set_c_ctl set_c_ops set_c_man set_c_flow set_c_tim set_c_sta set_c_neg set_c_enc set_c_dec set_c_alias set_c_crash set_c_out desired set_desired ct_desired current set_current ct_current life set_life ct_life slot set_slot ct_slot chan set_chan ct_chan clean_err set_clean_err ct_clean_err should_reset set_should_reset ct_should_reset has_conn set_has_conn ct_has_conn in_service set_in_service ct_in_service run_at set_run_at ct_run_at queued set_queued os_queued curop set_curop os_curop wc set_wc os_wc unacked set_unacked os_unacked table set_table os_table pq set_pq os_pq pending set_pending os_pending next_id set_next_id os_next_id outstanding set_outstanding os_outstanding uid set_uid os_uid mp set_mp mn_mp mc set_mc mn_mc mx set_mx mn_mx next_ctl set_next_ctl mn_next_ctl tokens set_tokens fl_tokens pub_rl set_pub_rl fl_pub_rl thr_rl set_thr_rl fl_thr_rl ping set_ping tm_ping ping_to set_ping_to tm_ping_to connack_to set_connack_to tm_connack_to reconnect_at set_reconnect_at tm_reconnect_at reset_at set_reset_at tm_reset_at recount set_recount tm_recount delay set_delay tm_delay inc_n set_inc_n st_inc_n inc_b set_inc_b st_inc_b una_n set_una_n st_una_n una_b set_una_b st_una_b emit fst snd].

Definition ok (s : client) : Prop := c_crash s = None.
(** what the updates below are about; everything else only changes "quietly" *)
Definition core (s : client) :=
  (current s, life s, (queued s, curop s, wc s, unacked s), (table s, pq s, next_id s, uid s), c_man s, tokens s, c_sta s, (c_neg s, c_enc s),
   c_out s).
Definition rlv (c : rl_config) (b : rl_state) : Prop := exists i, rsim c b i.
Definition rl_ok (s : client) : Prop := rlv pub_cfg (pub_rl s) /\ rlv thr_cfg (thr_rl s).
Definition hush (s s' : client) : Prop := core s' = core s /\ (rl_ok s -> rl_ok s' /\ c_crash s' = c_crash s).
Definition quiet (s s' : client) : Prop := core s' = core s /\ (rl_ok s -> rl_ok s' /\ c_crash s' = c_crash s) /\ (c_tim s', has_conn s') = (c_tim s, has_conn s).

(** bookkeeping beside the client while a handler runs: the operations taken out of the queues and not yet completed; whether the unacked
    table and the timeout queue are about to be cleared; what is in the io message being filled; the state of the connection's stream:
    not yet reset, in order, CONNACK [v] applied but not yet announced, given up *)
Inductive link := NEW | FINE | ACKED (v : connack) | DEAD.
Record ghost := mkg { g_hand : list op; g_clearing : bool; g_buf : bytes; g_link : link }.
Definition g_idle : ghost := mkg [] false [] FINE.
Definition with_hand (h : list op) (g : ghost) : ghost := mkg h (g_clearing g) (g_buf g) (g_link g).
Definition with_clearing (b : bool) (g : ghost) : ghost := mkg (g_hand g) b (g_buf g) (g_link g).
Definition with_buf (b : bytes) (g : ghost) : ghost := mkg (g_hand g) (g_clearing g) b (g_link g).
Definition with_link (l : link) (g : ghost) : ghost := mkg (g_hand g) (g_clearing g) (g_buf g) l.

Definition sending (c : cstate) : bool := match c with MQTT_CONNECT | CONNECTED | CLEAN_DISCONNECT => true | _ => false end.
(** nothing will be written to the connection any more *)
Definition down (g : ghost) (s : client) : Prop := g_link g = DEAD \/ sending (current s) = false.
(** a connection is announced in the same breath as it is entered *)
Definition calm (g : ghost) (s : client) : Prop := current s = CONNECTED -> forall v, g_link g <> ACKED v.
Definition parked (c : cstate) : bool := match c with STOPPED | PENDING_RECONNECT | CONNECTING => true | _ => false end.

Section Steps.
Variable cf : config.

(** after a disconnection has been processed *)
Definition resting (o : op) : Prop := exists o', o = unacked_for_disconnect o' /\ unacked_fails_policy cf o = false.
Definition cleared (s : client) : Prop :=
  curop s = None /\ wc s = [] /\ table s = [] /\ pq s = [] /\
  Forall (fun o => satisfies_policy cf (op_packet o) = true) (queued s) /\ Forall resting (unacked s) /\ mc s = [].
Definition nothing_held (s : client) : Prop := queued s = [] /\ curop s = None /\ wc s = [] /\ unacked s = [].

Definition edge (g : ghost) (s : client) (c : cstate) : Prop :=
  match c with
  | CONNECTING => False
  | MQTT_CONNECT => current s = CONNECTING
  | CONNECTED => current s = MQTT_CONNECT /\ exists v, g_link g = ACKED v
  | CLEAN_DISCONNECT => current s = MQTT_CONNECT \/ current s = CONNECTED
  | CHANNEL_SHUTDOWN => current s = CONNECTING \/ (sending (current s) = true /\ life s = LS_NONE)
  | PENDING_RECONNECT | STOPPED => cleared s /\ life s = LS_NONE
  | TERMINATED => current s = STOPPED
  end.

(** when an assertion may fail *)
Definition bad (r : crash_reason) (g : ghost) (s : client) : Prop :=
  match r with
  | CR_LIFECYCLE =>
    (life s = LS_CONNECTING /\ exists v y, c_out s = I_PACKET (P_DISCONNECT v) :: y) \/ (life s = LS_CONNECTED /\ current s = MQTT_CONNECT)
  | CR_RECEIVE_MAXIMUM => exists o, curop s = Some o /\ is_acked_publish (op_packet o) = true /\ tokens s = 0
  | CR_PACKET_ID => exists o, curop s = Some o /\ requires_ack (op_packet o) = true /\ packet_id (op_packet o) = 0
  | CR_POINTER =>
    g_clearing g = false /\ exists k u, (In (k, u) (table s) \/ (In (k, u) (pq s) /\ g_hand g = [])) /\ find_op u (unacked s) = None
  | CR_ENCODER => exists o q o' s1 e, queued s = o :: q /\ bind_packet_id o (set_queued q s) = Some (o', s1) /\
      append_packet (c_enc s1) (op_packet o') = (e, A_ABORT)
  | _ => False
  end.

Definition neutral (x : out) : bool := match x with O_CONNECT | O_SHUTDOWN _ | I_PACKET _ => true | _ => false end.

(** whether the user ever gave stop() a DISCONNECT packet to send *)
Definition is_stop (x : out) : bool := match x with I_SUBMIT o => is_disconnect (op_packet o) | _ => false end.
Definition has_stop (l : list out) : bool := existsb is_stop l.
(** a connection can be announced: an attempt was, or the end of that attempt has been announced already, by a stop() with a DISCONNECT *)
Definition startable (s : client) : Prop := life s = LS_CONNECTING \/ (life s = LS_NONE /\ has_stop (c_out s) = true).

(** an operation counted as incomplete and not as sent *)
Definition waiting (o : op) : Prop :=
  is_request (op_packet o) = false \/ (op_inc o = true /\ op_una o = false) \/
  (op_size o = 0 /\ exists e, get_encoded_size (op_packet o) = Err e).
(** the start of a connection *)
Definition fresh (s : client) : Prop := unacked s = [] /\ tokens s = ng_receive_maximum (c_neg s) /\ Forall waiting (queued s).

(** when an operation sent at [now] times out *)
Definition deadline_of (now : N) (o : op) : N :=
  let seconds := if op_override o =? 0 then cf_ack_timeout_s cf else op_override o in
  if 0 <? seconds then u64 (now + s_to_ns seconds) else u64_max.
(** when an operation may be completed with a code: a success needs the acknowledgement just received if one is required, a timeout a
    deadline that has passed, an offline failure a policy that does not keep the operation *)
Definition may_finish (s : client) (o : op) (e : code) (ack : option packet5) : Prop :=
  match e with
  | K_OFFLINE_QUEUE_POLICY => ack = None /\ satisfies_policy cf (op_packet o) = false
  | K_SUCCESS =>
    match ack with
    | Some a => requires_ack (op_packet o) = true /\ ack_id a = packet_id (op_packet o) /\
        (exists confused, ack_count_matches confused (op_packet o) a = true) /\ (exists y, c_out s = I_PACKET a :: y) /\
        exists o' t, sent_here o' t (c_out s) /\ op_uid o' = op_uid o /\ packet_id (op_packet o') = packet_id (op_packet o)
    | None => requires_ack (op_packet o) = false /\ exists o' t, sent_here o' t (c_out s) /\ op_uid o' = op_uid o
    end
  | K_TIMEOUT => ack = None /\ requires_ack (op_packet o) = true /\ 
      exists now o' t, clock (c_out s) = Some now /\ sent_here o' t (c_out s) /\ op_uid o' = op_uid o /\ deadline_of t o' <= now
  | _ => ack = None
  end.
Definition may_drop (l : list out) (e : code) (o : op) : Prop :=
  match e with
  | K_OFFLINE_QUEUE_POLICY => satisfies_policy cf (op_packet o) = false
  | K_SUCCESS => requires_ack (op_packet o) = false /\ exists o' t, sent_here o' t l /\ op_uid o' = op_uid o
  | K_TIMEOUT => False
  | _ => True
  end.

(** composite updates *)
Definition enqueue (p : packet5) (override : N) (s : client) : client :=
  let o := op_new (uid s) BY_USER p override in
  let s := emit (I_SUBMIT o) (set_uid (uid s + 1) s) in
  let '(o, s) := change_statistics true false (set_packet (set_packet_id 0 p) o) s in
  set_queued (queued s ++ [o]) s.
Definition refuse (p : packet5) (override : N) (e : code) (s : client) : client :=
  let o := op_new (uid s) BY_USER p override in
  emit (O_DONE o e None) (emit (I_SUBMIT o) (set_uid (uid s + 1) s)).
Definition push_front (p : packet5) (s : client) : client :=
  set_queued (op_new (uid s) BY_CLIENT p 0 :: queued s) (set_uid (uid s + 1) s).
Definition drop_new (p : packet5) (s : client) : client := emit (O_LOST (op_new (uid s) BY_CLIENT p 0)) (set_uid (uid s + 1) s).
Definition push_disconnect (v : disconnect) (s : client) : client :=
  let o := op_new (uid s) BY_USER (P_DISCONNECT v) 0 in
  set_queued (o :: queued s) (emit (I_SUBMIT o) (set_uid (uid s + 1) s)).
Definition drop_disconnect (v : disconnect) (s : client) : client :=
  let o := op_new (uid s) BY_USER (P_DISCONNECT v) 0 in
  emit (O_LOST o) (emit (I_SUBMIT o) (set_uid (uid s + 1) s)).
Definition puback_core (w : owner) (id : N) (s : client) : client :=
  set_queued (insert_puback (op_new (uid s) w (P_PUBACK (mkpuback id 0 None [])) 0) (queued s)) (set_uid (uid s + 1) s).
Definition publish_core (acquire : bool) (v : publish) (s : client) : client :=
  let '(s, control) := if acquire then acquire_ack v s else (s, None) in
  let s := emit (O_PUBLISH v control) s in
  if pb_qos v =? 0 then s else
  match lookup (pb_packet_id v) (mp s) with Some _ => s | None => puback_core BY_CLIENT (pb_packet_id v) s end.
Definition publish_received (acquire : bool) (v : publish) (s : client) : client := publish_core acquire v (emit (I_PACKET (P_PUBLISH v)) s).
Definition manual_core (control : N) (s : client) : client :=
  let s := emit (I_ACK control) s in
  match lookup control (mc s) with
  | Some id => puback_core (BY_ACK control) id (set_mc (remove_key control (mc s)) (set_mp (remove_key id (mp s)) s))
  | None =>
    if existsb (N.eqb control) (mx s)
    then emit (O_ACK_RESULT control MPAR_CANCELLED) (set_mx (filter (fun x => negb (x =? control)) (mx s)) s)
    else emit (O_ACK_RESULT control MPAR_INVALID) s
  end.
Definition puback_received (a : puback) (s : client) : client :=
  set_tokens (N.min (ng_receive_maximum (c_neg s)) ((tokens s + 1) mod 4294967296)) (emit (I_PACKET (P_PUBACK a)) s).

(** ** Timers *)
(** how timers change while nothing else does *)
Inductive retimed (g : ghost) (s : client) : tim -> Prop :=
| T_same : retimed g s (c_tim s)
| T_connack t : current s = MQTT_CONNECT -> retimed g s (c_tim (set_connack_to t s))
| T_up now : current s = CONNECTED -> (exists v, g_link g = ACKED v) -> clock (c_out s) = Some now ->
    retimed g s (c_tim (set_reset_at (add_sat now (ms_to_ns (cf_min_connected_ms cf))) (reset_ping now (set_ping_to 0 s))))
| T_ping now : current s = CONNECTED -> clock (c_out s) = Some now -> (exists o q, queued s = o :: q /\ op_packet o = P_PINGREQ) ->
    retimed g s (c_tim (reset_ping now s))
| T_backoff : current s = CONNECTED -> g_link g = FINE -> retimed g s (c_tim (set_reset_at 0 (set_delay 0 (set_recount 0 s))))
| T_delay : retimed g s (c_tim (set_delay (cf_min_delay_ms cf) s)).
(** ... when a connection is reported: no answer to a ping is awaited, and the next one is planned *)
Definition opened (s : client) : Prop := ping_to s = 0 /\ exists now, clock (c_out s) = Some now /\ ping s = ping (reset_ping now s).
(** ... when a packet is received: an answer to a ping ends the waiting for it *)
Definition up (c : cstate) : bool := match c with CONNECTED | CLEAN_DISCONNECT => true | _ => false end.
Definition heard (x : out) (s : client) (t : tim) : Prop :=
  match x with
  | I_PACKET (P_PUBLISH _) => up (current s) = false /\ t = c_tim s
  | I_PACKET P_PINGRESP => t = if up (current s) then c_tim (set_ping_to 0 s) else c_tim s
  | _ => t = c_tim s
  end.
(** ... when the state changes: the next attempt is planned *)
Definition busy (c : cstate) : bool := match c with STOPPED | PENDING_RECONNECT | TERMINATED => false | _ => true end.
Definition entered (c : cstate) (s : client) (t : tim) : Prop :=
  match c with
  | PENDING_RECONNECT => busy (current s) = true /\ exists now rnd, clock (c_out s) = Some now /\
      t = c_tim (set_recount (u64 (recount s + 1)) (set_reconnect_at (add_sat now (ms_to_ns (reconnect_delay_ms cf rnd s))) s))
  | _ => t = c_tim s
  end.
(** the last thing heard of the client is that it has stopped *)
Fixpoint at_rest (l : list out) : Prop := match l with [] => True | O_LIFE e :: _ => e = STOPPED_EVENT | _ :: l => at_rest l end.

(** an operation whose statistics have been taken back *)
Definition settled (o : op) : Prop :=
  is_request (op_packet o) = false \/ (op_inc o = false /\ op_una o = false) \/
  (op_size o = 0 /\ exists e, get_encoded_size (op_packet o) = Err e).
Definition not_in_pq (u : N) (s : client) : Prop := Forall (fun x => snd x <> u) (pq s).

(** whether the client has been connected since it was started *)
Inductive rejoin (g : ghost) (s : client) : bool -> Prop :=
| R_same : rejoin g s (has_conn s)
| R_up : current s = CONNECTED -> (exists v, g_link g = ACKED v) -> rejoin g s true
| R_stop : current s = STOPPED -> g_link g = DEAD -> rejoin g s false.

Inductive prim : ghost * client -> ghost * client -> Prop :=
| P_quiet g s s' : hush s s' -> (ok s -> retimed g s (c_tim s')) -> (ok s -> rejoin g s (has_conn s')) -> prim (g, s) (g, s')
| P_crash g s r : (ok s -> bad r g s) -> prim (g, s) (g, crash r s)
| P_emit g s x t : neutral x = true -> (ok s -> heard x s t) -> prim (g, s) (g, emit x (set_c_tim t s))
(* lifecycle *)
| P_failure g s e v : (ok s -> life s = LS_CONNECTING) -> prim (g, s) (g, emit (O_LIFE (CONNECTION_FAILURE e v)) (set_life LS_NONE s))
| P_disconnection g s e v : (ok s -> life s = LS_CONNECTED) -> prim (g, s) (g, emit (O_LIFE (DISCONNECTION e v)) (set_life LS_NONE s))
| P_attempt g s : (ok s -> (current s = STOPPED \/ current s = PENDING_RECONNECT) /\ life s = LS_NONE) -> (ok s -> g_link g = FINE) -> (ok s -> g_hand g = []) ->
    (ok s -> current s = PENDING_RECONNECT -> exists now, clock (c_out s) = Some now /\ reconnect_at s <= now) ->
    prim (g, s) (g, emit (O_LIFE ATTEMPTING_CONNECT) (set_life LS_CONNECTING (set_current CONNECTING s)))
| P_success g s v : (ok s -> startable s /\ current s = CONNECTED /\ g_link g = ACKED v /\ fresh s) -> (ok s -> opened s) -> (ok s -> g_hand g = []) -> (ok s -> has_conn s = true) ->
    prim (g, s) (with_link FINE g, emit (O_LIFE (CONNECTION_SUCCESS (c_neg s) v)) (set_life LS_CONNECTED s))
| P_stopped g s : (ok s -> current s = STOPPED /\ life s = LS_NONE /\ nothing_held s /\ g_hand g = []) -> (ok s -> has_conn s = false) ->
    prim (g, s) (g, emit (O_LIFE STOPPED_EVENT) s)
| P_terminated g s : (ok s -> current s = TERMINATED /\ nothing_held s /\ g_hand g = []) -> prim (g, s) (g, emit O_TERMINATED s)
| P_state g s c t : (ok s -> edge g s c) -> (ok s -> calm g s) -> (ok s -> entered c s t) -> (ok s -> c = STOPPED -> g_link g = DEAD) ->
    (ok s -> c = CONNECTED -> ng_rejoined (c_neg s) = true -> should_resume cf s = true) ->
    prim (g, s) (match c with MQTT_CONNECT => with_link NEW g | _ => g end, set_current c (set_c_tim t s))
(* the connection's stream *)
| P_open g s : (ok s -> current s = MQTT_CONNECT /\ g_link g = NEW /\ curop s = None) ->
    prim (g, s) (with_link FINE g,
      set_c_neg (ng_reset (c_neg s) (connect_view cf s)) (set_c_enc (mkencoder [] (enc_resolver (c_enc s))) s))
| P_apply g s v : (ok s -> current s = MQTT_CONNECT /\ g_link g = FINE /\ ca_reason_code v < 128 /\ exists y, c_out s = I_PACKET (P_CONNACK v) :: y) ->
    prim (g, s) (with_link (ACKED v) g, set_c_neg (ng_apply (c_neg s) v) s)
| P_resolver g s : (ok s -> current s = CONNECTED /\ exists v, g_link g = ACKED v) ->
    prim (g, s) (g, set_c_enc (mkencoder (enc_steps (c_enc s))
      (Some (out_reset (out_new (cf_alias_out cf)) (ng_alias_maximum_to_server (c_neg s))))) s)
| P_die g s : (ok s -> g_link g = FINE) -> prim (g, s) (with_buf [] (with_link DEAD g), s)
| P_closed g s : (ok s -> sending (current s) = false) -> (ok s -> current s = STOPPED -> at_rest (c_out s)) -> prim (g, s) (with_buf [] (with_link FINE g), s)
| P_encode g s cap e b r : (ok s -> curop s <> None /\ g_link g = FINE) -> encode_to_buffer (c_enc s) (mkbuf cap (g_buf g)) = (e, b, r) ->
    prim (g, s) (with_buf (bdata b) g, set_c_enc e s)
| P_write g s : (ok s -> sending (current s) = true /\ g_link g = FINE) -> prim (g, s) (with_buf [] g, emit (O_WRITE (g_buf g)) s)
(* new operations *)
| P_enqueue g s p override : (ok s -> is_request p = true /\ validate_packet p = true /\
      (current s = CONNECTED /\ life s = LS_CONNECTED \/ satisfies_policy cf p = true)) -> prim (g, s) (g, enqueue p override s)
| P_refuse g s p override e : (ok s -> is_request p = true /\ validate_packet p = true /\
      (e = K_CLIENT_TERMINATED \/ e = K_OFFLINE_QUEUE_POLICY /\ current s <> CONNECTED /\ satisfies_policy cf p = false)) ->
    prim (g, s) (g, refuse p override e s)
| P_push_front g s p : (ok s -> match p with
      | P_CONNECT v => current s = MQTT_CONNECT /\ g_link g = FINE /\ validate_connect v = true /\ curop s = None /\ wc s = []
      | P_DISCONNECT v => current s = CLEAN_DISCONNECT
      | P_PINGREQ => current s = CONNECTED
      | _ => False end) -> (ok s -> forall v, p = P_CONNECT v -> v = with_client_id (ng_client_id (c_neg s)) (connect_view cf s)) -> prim (g, s) (g, push_front p s)
| P_drop_new g s v : prim (g, s) (g, drop_new (P_DISCONNECT v) s)
| P_push_disconnect g s v : (ok s -> validate_disconnect v = true /\ current s = CLEAN_DISCONNECT) ->
    prim (g, s) (g, push_disconnect v s)
| P_drop_disconnect g s v : (ok s -> validate_disconnect v = true) -> prim (g, s) (g, drop_disconnect v s)
| P_publish g s acquire v : (ok s -> current s = CONNECTED \/ current s = CLEAN_DISCONNECT) -> (ok s -> g_link g = FINE) ->
    prim (g, s) (g, publish_received acquire v s)
| P_manual g s control : (ok s -> g_link g = FINE) -> prim (g, s) (g, manual_core control s)
| P_cancel_manual g s : (ok s -> down g s) -> prim (g, s) (g, reset_manual s)
(* operations on their way out *)
| P_take g s o q : queued s = o :: q -> (ok s -> curop s = None /\ validate_operation cf (op_packet o) s = false) ->
    prim (g, s) (with_hand (o :: g_hand g) g, set_queued q s)
| P_take_queued g s l q : (ok s -> Permutation (queued s) (l ++ q) /\ down g s) ->
    (ok s -> q = filter (fun o => negb (fails_policy cf o)) (queued s) \/ q = []) ->
    prim (g, s) (with_hand (l ++ g_hand g) g, set_queued q s)
| P_take_wc g s : prim (g, s) (with_hand (wc s ++ g_hand g) g, set_wc [] s)
| P_unacked g s l kept : (ok s -> g_clearing g = true /\ down g s) ->
    (ok s -> Permutation (map unacked_for_disconnect (unacked s)) (l ++ kept)) ->
    (ok s -> kept = [] \/ kept = filter (fun o => negb (unacked_fails_policy cf o)) (map unacked_for_disconnect (unacked s))) ->
    prim (g, s) (with_hand (l ++ g_hand g) g, set_unacked kept s)
| P_reset_unacked g s : (ok s -> g_clearing g = true /\ down g s) ->
    prim (g, s) (with_hand (unacked s ++ g_hand g) g, set_unacked [] s)
| P_acked g s id u o : lookup id (table s) = Some u -> find_op u (unacked s) = Some o -> (ok s -> g_clearing g = false) ->
    prim (g, s) (with_hand (o :: g_hand g) g, set_table (remove_key id (table s)) (set_unacked (remove_op u (unacked s)) s))
| P_expired g s d u o : In (d, u) (pq s) -> find_op u (unacked s) = Some o -> (ok s -> g_clearing g = false) ->
    prim (g, s) (with_hand (o :: g_hand g) g, set_table (remove_key (packet_id (op_packet o)) (table s))
      (set_unacked (remove_op u (unacked s)) (set_pq (filter (fun x => negb (snd x =? u)) (pq s)) s)))
| P_forget g s u : (ok s -> (exists o h, g_hand g = o :: h /\ u = op_uid o) \/
      (exists o, find_op u (unacked s) = Some o /\ lookup (packet_id (op_packet o)) (table s) = None)) ->
    prim (g, s) (g, set_pq (filter (fun x => negb (snd x =? u)) (pq s)) s)
| P_begin_clear g s : prim (g, s) (with_clearing true g, s)
| P_end_clear g s : (ok s -> down g s) -> prim (g, s) (with_clearing false g, set_pq [] (set_table [] s))
| P_statistics g s o h inc una : g_hand g = o :: h ->
    prim (g, s) (with_hand (fst (change_statistics inc una o s) :: h) g, snd (change_statistics inc una o s))
| P_done g s o h e ack : g_hand g = o :: h -> (ok s -> not_in_pq (op_uid o) s /\ settled o /\ may_finish s o e ack) ->
    prim (g, s) (with_hand h g, emit (O_DONE o e ack) s)
(* requeueing *)
| P_unsend g s o : curop s = Some o -> (ok s -> down g s) ->
    prim (g, s) (g, set_curop None (set_queued (o :: queued s) s))
| P_requeue g s : (ok s -> current s = CONNECTED /\ (forall o, curop s = Some o -> is_connect (op_packet o) = true) /\ g_hand g = [] /\
      exists v, g_link g = ACKED v) -> (ok s -> ng_rejoined (c_neg s) = true) ->
    prim (g, s) (g, set_unacked [] (set_queued (filter (fun o => is_acked_publish (op_packet o)) (unacked s) ++
      filter (fun o => negb (is_acked_publish (op_packet o))) (unacked s) ++ queued s) s))
| P_refile g s : (ok s -> current s = CONNECTED /\ (forall o, curop s = Some o -> is_connect (op_packet o) = true) /\ g_hand g = [] /\
      exists v, g_link g = ACKED v) -> (ok s -> ng_rejoined (c_neg s) = false) ->
    prim (g, s) (with_hand (filter (fails_policy cf) (unacked s)) g,
      set_queued (filter (fun o => negb (fails_policy cf o)) (unacked s) ++ queued s) (set_unacked [] s))
| P_incomplete g s : prim (g, s) (g, set_queued (fst (set_list_incomplete (queued s) s)) (snd (set_list_incomplete (queued s) s)))
(* sending *)
| P_start g s o q o' s1 e : queued s = o :: q -> bind_packet_id o (set_queued q s) = Some (o', s1) ->
    (ok s -> append_packet (c_enc s1) (op_packet o') = (e, A_OK)) ->
    (ok s -> curop s = None /\ g_link g = FINE /\ validate_operation cf (op_packet o) s = true /\
      (current s = MQTT_CONNECT /\ is_connect (op_packet o) = true \/ current s = CONNECTED \/
       current s = CLEAN_DISCONNECT /\ is_disconnect (op_packet o) = true)) -> (ok s -> g_hand g = []) ->
    prim (g, s) (g, set_curop (Some o') (set_c_enc e s1))
| P_start_fails g s o q : queued s = o :: q ->
    (ok s -> curop s = None /\ g_clearing g = false /\ validate_operation cf (op_packet o) s = true) ->
    bind_packet_id o (set_queued q s) = None -> (ok s -> g_link g = FINE) ->
    prim (g, s) (with_buf [] (with_link DEAD g), emit (O_LOST o) (set_queued q s))
| P_append_fails g s o q o' s1 e x : queued s = o :: q ->
    (ok s -> curop s = None /\ g_clearing g = false /\ validate_operation cf (op_packet o) s = true) ->
    bind_packet_id o (set_queued q s) = Some (o', s1) -> append_packet (c_enc s1) (op_packet o') = (e, A_FAILED x) -> (ok s -> g_link g = FINE) ->
    prim (g, s) (with_buf [] (with_link DEAD g), emit (O_LOST o') (set_c_enc e s1))
| P_sent g s o now : curop s = Some o -> (ok s -> g_link g = FINE /\ g_clearing g = false /\ enc_steps (c_enc s) = [] /\
      sending (current s) = true /\ clock (c_out s) = Some now /\
      (is_acked_publish (op_packet o) = true -> 0 < tokens s) /\ (requires_ack (op_packet o) = true -> packet_id (op_packet o) <> 0)) -> (ok s -> g_hand g = []) ->
    prim (g, s) (g, finish_operation cf now o s)
(* flow control *)
| P_tokens g s : (ok s -> current s = CONNECTED /\ exists v, g_link g = ACKED v) -> prim (g, s) (g, set_tokens (ng_receive_maximum (c_neg s)) s)
| P_puback g s a : (ok s -> current s = CONNECTED \/ current s = CLEAN_DISCONNECT) -> prim (g, s) (g, puback_received a s).

Inductive steps : ghost * client -> ghost * client -> Prop :=
| steps_refl x : steps x x
| steps_cons x y z : prim x y -> steps y z -> steps x z.
Lemma steps_one x y : prim x y -> steps x y.
Proof. intros. eapply steps_cons; [eassumption|constructor]. Qed.
Lemma steps_trans x y z : steps x y -> steps y z -> steps x z.
Proof. induction 1; [auto|]. intros. eapply steps_cons; [eassumption|auto]. Qed.
Lemma steps_snoc x y z : steps x y -> prim y z -> steps x z.
Proof. intros. eapply steps_trans; [eassumption|]. apply steps_one; assumption. Qed.
Lemma steps_inv (J : ghost * client -> Prop) : (forall x y, J x -> prim x y -> J y) -> forall x y, steps x y -> J x -> J y.
Proof. intros H x y Hs. induction Hs; eauto. Qed.
End Steps.
