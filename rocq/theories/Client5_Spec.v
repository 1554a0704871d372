(** Vocabulary for stating what the MQTT5 client guarantees, in terms of its trace ([c_out], newest first). *)
From Verif Require Import Base Mqtt5_Views Encoder5_Model Negotiated_Model Client5_State Client5_Model.

(** a request without what the client fills in: the packet id and the duplicate flag *)
Definition bare (p : packet5) : packet5 :=
  match p with
  | P_PUBLISH v => P_PUBLISH (mkpublish (pb_payload v) 0 (pb_qos v) false (pb_retain v) (pb_topic v) (pb_payload_format v)
      (pb_message_expiry v) (pb_topic_alias v) (pb_response_topic v) (pb_correlation_data v) (pb_subscription_identifiers v)
      (pb_content_type v) (pb_user_properties v))
  | P_SUBSCRIBE v => P_SUBSCRIBE (mksubscribe 0 (sb_subscriptions v) (sb_subscription_identifier v) (sb_user_properties v))
  | P_UNSUBSCRIBE v => P_UNSUBSCRIBE (mkunsubscribe 0 (us_topic_filters v) (us_user_properties v))
  | p => p
  end.
(** what an operation is, whatever the client has done with it: which object, on whose behalf, asking for what *)
Definition identity : Type := N * owner * packet5.
Definition identity_of (o : op) : identity := (op_uid o, op_owner o, bare (op_packet o)).

(** the operations the user has submitted; those whose completion was reported; those the client has dropped; both *)
Definition submitted (l : list out) : list op := flat_map (fun x => match x with I_SUBMIT o => [o] | _ => [] end) l.
Definition completed (l : list out) : list op := flat_map (fun x => match x with O_DONE o _ _ => [o] | _ => [] end) l.
Definition lost (l : list out) : list op := flat_map (fun x => match x with O_LOST o => [o] | _ => [] end) l.
Definition finished (l : list out) : list op := flat_map (fun x => match x with O_DONE o _ _ => [o] | O_LOST o => [o] | _ => [] end) l.

(** those whose last byte was put into an io message, and the packets received *)
Definition sent (l : list out) : list op := flat_map (fun x => match x with O_SENT o => [o] | _ => [] end) l.
Definition received (l : list out) : list packet5 := flat_map (fun x => match x with I_PACKET p => [p] | _ => [] end) l.

(** the clock the latest event read *)
Definition is_tick (x : out) : option N := match x with I_TICK now => Some now | _ => None end.
Fixpoint clock (l : list out) : option N :=
  match l with [] => None | x :: l => match is_tick x with Some now => Some now | None => clock l end end.
(** operation [o] was sent at time [t], and no connection attempt was made since *)
Definition is_attempt (x : out) : bool := match x with O_LIFE ATTEMPTING_CONNECT => true | _ => false end.
Definition sent_here (o : op) (t : N) (l : list out) : Prop :=
  exists later earlier, l = later ++ O_SENT o :: earlier /\ Forall (fun x => is_attempt x = false) later /\ clock earlier = Some t.
(** the packet id an acknowledgement refers to *)
Definition ack_id (p : packet5) : N :=
  match p with P_PUBACK a => pa_packet_id a | P_SUBACK a | P_UNSUBACK a => sa_packet_id a | _ => 0 end.
(** the phase the lifecycle events announced so far leave the client in *)
Definition phase_after (e : life_event) : lstate :=
  match e with ATTEMPTING_CONNECT => LS_CONNECTING | CONNECTION_SUCCESS _ _ => LS_CONNECTED | _ => LS_NONE end.
Fixpoint phase_of (l : list out) : lstate :=
  match l with [] => LS_NONE | O_LIFE e :: _ => phase_after e | _ :: l => phase_of l end.
(** the settings of the connection that has been announced last, if no other attempt was made since *)
Fixpoint settings_of (l : list out) : option negotiated :=
  match l with
  | [] => None
  | O_LIFE (CONNECTION_SUCCESS n _) :: _ => Some n
  | O_LIFE ATTEMPTING_CONNECT :: _ => None
  | _ :: l => settings_of l
  end.
(** how many entries of a kind there are since that announcement or that attempt *)
Fixpoint count_here (f : out -> bool) (l : list out) : N :=
  match l with
  | [] => 0
  | O_LIFE (CONNECTION_SUCCESS _ _) :: _ | O_LIFE ATTEMPTING_CONNECT :: _ => 0
  | x :: l => (if f x then 1 else 0) + count_here f l
  end.
(** a QoS 1 publish went out; a PUBACK came in *)
Definition publish_sent (x : out) : bool :=
  match x with O_SENT o => match op_packet o with P_PUBLISH v => negb (pb_qos v =? 0) | _ => false end | _ => false end.
Definition puback_came (x : out) : bool := match x with I_PACKET (P_PUBACK _) => true | _ => false end.
(** whether a packet is answered by the server: PUBLISH except with QoS 0, SUBSCRIBE, UNSUBSCRIBE; and the packet id it carries *)
Definition answered (p : packet5) : bool :=
  match p with P_PUBLISH v => negb (pb_qos v =? 0) | P_SUBSCRIBE _ | P_UNSUBSCRIBE _ => true | _ => false end.
Definition id_of (p : packet5) : N :=
  match p with P_PUBLISH v => pb_packet_id v | P_SUBSCRIBE v => sb_packet_id v | P_UNSUBSCRIBE v => us_packet_id v | _ => 0 end.
(** the lifecycle events announced, newest first; which sequences of them make sense: every attempt either fails or succeeds and is then
    followed by a disconnection, and only between such groups can the client stop *)
Definition life_events (l : list out) : list life_event := flat_map (fun x => match x with O_LIFE e => [e] | _ => [] end) l.
Inductive lifecycle : lstate -> list life_event -> Prop :=
| L_start : lifecycle LS_NONE []
| L_attempt l : lifecycle LS_NONE l -> lifecycle LS_CONNECTING (ATTEMPTING_CONNECT :: l)
| L_failure e v l : lifecycle LS_CONNECTING l -> lifecycle LS_NONE (CONNECTION_FAILURE e v :: l)
| L_success n v l : lifecycle LS_CONNECTING l -> lifecycle LS_CONNECTED (CONNECTION_SUCCESS n v :: l)
| L_disconnection e v l : lifecycle LS_CONNECTED l -> lifecycle LS_NONE (DISCONNECTION e v :: l)
| L_stopped l : lifecycle LS_NONE l -> lifecycle LS_NONE (STOPPED_EVENT :: l).
(** the same, except that a connection may also be announced after its attempt was announced to have failed *)
Inductive loose_lifecycle : lstate -> list life_event -> Prop :=
| LL_start : loose_lifecycle LS_NONE []
| LL_attempt l : loose_lifecycle LS_NONE l -> loose_lifecycle LS_CONNECTING (ATTEMPTING_CONNECT :: l)
| LL_failure e v l : loose_lifecycle LS_CONNECTING l -> loose_lifecycle LS_NONE (CONNECTION_FAILURE e v :: l)
| LL_success n v l : loose_lifecycle LS_CONNECTING l -> loose_lifecycle LS_CONNECTED (CONNECTION_SUCCESS n v :: l)
| LL_late_success n v l : loose_lifecycle LS_NONE l -> loose_lifecycle LS_CONNECTED (CONNECTION_SUCCESS n v :: l)
| LL_disconnection e v l : loose_lifecycle LS_CONNECTED l -> loose_lifecycle LS_NONE (DISCONNECTION e v :: l)
| LL_stopped l : loose_lifecycle LS_NONE l -> loose_lifecycle LS_NONE (STOPPED_EVENT :: l).
(** the user never gave stop() a DISCONNECT packet to send *)
Definition plain_stops (l : list out) : Prop :=
  Forall (fun o => match op_packet o with P_DISCONNECT _ => False | _ => True end) (submitted l).
(** every packet id is taken by an operation sent on this connection and not finished with *)
Definition ids_exhausted (l : list out) : Prop := forall id, 0 < id -> id < 65536 ->
  exists o t, sent_here o t l /\ id_of (op_packet o) = id /\ ~ In (op_uid o) (map op_uid (finished l)).
(** the size a request counts with in the statistics: that of its encoding, before a packet id and any duplicate flag or alias is chosen for
    it; a request too large to be encoded does not count *)
Definition counted_size (o : op) : option N :=
  if is_request (op_packet o) then match get_encoded_size (bare (op_packet o)) with Ok n => Some n | Err _ => None end else None.
Definition is_completed (l : list out) (o : op) : bool := existsb (fun d => op_uid d =? op_uid o) (completed l).
(** the sizes of the requests submitted and not completed yet *)
Definition pending_sizes (l : list out) : list N :=
  flat_map (fun o => match counted_size o with Some n => [n] | None => [] end) (filter (fun o => negb (is_completed l o)) (submitted l)).
(** what was sent since the latest time a connection was announced; the sizes of those requests among it that the server is to answer
    and that are not completed yet *)
Fixpoint sent_since_success (l : list out) : list op :=
  match l with
  | [] | O_LIFE (CONNECTION_SUCCESS _ _) :: _ => []
  | O_SENT o :: l => o :: sent_since_success l
  | _ :: l => sent_since_success l
  end.
Definition unanswered_sizes (l : list out) : list N :=
  flat_map (fun o => match counted_size o with Some n => [n] | None => [] end)
    (filter (fun o => answered (op_packet o) && negb (is_completed l o)) (sent_since_success l)).
Definition sum (l : list N) : N := fold_right N.add 0 l.
(** received since the latest connection attempt *)
Definition received_here (p : packet5) (l : list out) : Prop :=
  exists later earlier, l = later ++ I_PACKET p :: earlier /\ Forall (fun x => is_attempt x = false) later.
(** a setting: the server's value if it gave one, else the client's own or the default *)
Definition agreed (server : option N) (own used : N) : Prop := match server with Some x => used = x | None => used = own end.
Definition agreed16 (server : option N) (own used : N) : Prop := match server with Some x => x < 65536 -> used = x | None => used = own end.
Definition agreed_flag (server : option N) (used : bool) : Prop := match server with Some x => used = negb (x =? 0) | None => used = true end.
Definition given (o : option N) (d : N) : N := match o with Some x => x | None => d end.
(** what MQTT 5 makes of the client's CONNECT options and the server's CONNACK *)
Definition settled_on (cf : config) (v : connack) (n : negotiated) : Prop :=
  ng_maximum_qos n = N.min 1 (given (ca_maximum_qos v) 2) /\
  agreed (ca_session_expiry v) (given (cn_session_expiry (cf_connect cf)) 0) (ng_session_expiry n) /\
  agreed16 (ca_receive_maximum v) 65535 (ng_receive_maximum n) /\
  agreed (ca_maximum_packet_size v) 268435460 (ng_maximum_packet_size n) /\
  agreed16 (ca_topic_alias_maximum v) 0 (ng_alias_maximum_to_server n) /\
  ng_alias_maximum_to_client n = given (match cf_alias_in cf with Some a => Some a | None => cn_topic_alias_maximum (cf_connect cf) end) 0 /\
  agreed16 (ca_server_keep_alive v) (cn_keep_alive (cf_connect cf)) (ng_keep_alive n) /\
  agreed_flag (ca_retain_available v) (ng_retain n) /\ agreed_flag (ca_wildcard_available v) (ng_wildcard n) /\
  agreed_flag (ca_sub_ids_available v) (ng_sub_ids n) /\ agreed_flag (ca_shared_available v) (ng_shared n) /\
  ng_rejoined n = ca_session_present v.
(** what the server allows of publishes *)
Definition allowed (n : negotiated) (p : packet5) : Prop :=
  match p with P_PUBLISH v => pb_qos v <= ng_maximum_qos n /\ (pb_retain v = true -> ng_retain n = true) | _ => True end.
(** when an operation sent at [t] is overdue: its own timeout in seconds if it has one, else the configured one, 0 meaning never *)
Definition overdue (cf : config) (t : N) (o : op) (now : N) : Prop :=
  let seconds := if op_override o =? 0 then cf_ack_timeout_s cf else op_override o in
  if seconds =? 0 then 2 ^ 64 - 1 <= now else (t + N.min (2 ^ 64 - 1) (seconds * 1000000000)) mod 2 ^ 64 <= now.

(** ** The order in which requests are sent *)
(** the requests waiting to be sent, and those sent that are still to be answered *)
Record line := mkline { waiting_line : list op; sent_line : list op }.
Definition without (u : N) (l : list op) : list op := filter (fun o => negb (op_uid o =? u)) l.
Definition publishes (o : op) : bool := match op_packet o with P_PUBLISH _ => true | _ => false end.
(** when a connection is announced, what was sent before and not answered goes to the front, in the order it was sent; if the session is
    resumed, publishes go before the rest *)
Definition requeued (resumed : bool) (l : line) : list op :=
  (if resumed then filter publishes (sent_line l) ++ filter (fun o => negb (publishes o)) (sent_line l) else sent_line l) ++ waiting_line l.
Definition line_step (x : out) (l : line) : line :=
  match x with
  | I_SUBMIT o => if is_request (op_packet o) then mkline (waiting_line l ++ [o]) (sent_line l) else l
  | O_SENT o => mkline (without (op_uid o) (waiting_line l)) (sent_line l ++ if answered (op_packet o) then [o] else [])
  | O_DONE o _ _ | O_LOST o => mkline (without (op_uid o) (waiting_line l)) (without (op_uid o) (sent_line l))
  | O_LIFE (CONNECTION_SUCCESS n _) => mkline (requeued (ng_rejoined n) l) []
  | _ => l
  end.
Fixpoint line_of (l : list out) : line := match l with [] => mkline [] [] | x :: l => line_step x (line_of l) end.
(** what the offline queue policy keeps while there is no connection *)
Definition keeps (cf : config) (p : packet5) : bool :=
  match cf_queue cf, p with
  | (FAIL_QOS0_PUBLISH | FAIL_NON_QOS1_PUBLISH), P_PUBLISH v => negb (pb_qos v =? 0)
  | FAIL_QOS0_PUBLISH, (P_SUBSCRIBE _ | P_UNSUBSCRIBE _) => true
  | _, _ => false
  end.
(** a publish with the DUP flag set and everything else as it was *)
Definition redelivered (v : publish) : publish :=
  mkpublish (pb_payload v) (pb_packet_id v) (pb_qos v) true (pb_retain v) (pb_topic v) (pb_payload_format v) (pb_message_expiry v)
    (pb_topic_alias v) (pb_response_topic v) (pb_correlation_data v) (pb_subscription_identifiers v) (pb_content_type v) (pb_user_properties v).

(** ** Acknowledging received publishes *)
(** the packet ids whose PUBACK is still to be sent on this connection, in order: those that were due when the last packet was sent, and
    those that became due since; and the acknowledgements the user has taken over on this connection and not yet given *)
Record acks := mkacks { owed : list N; owed_since : list N; taken : list (N * N) }.
Definition due (a : acks) : list N := owed a ++ owed_since a.
(** a publish is delivered and the user takes over the acknowledgement, or does not; the user gives one; a packet is sent; a new connection *)
Definition acks_step (x : out) (a : acks) : acks :=
  match x with
  | O_PUBLISH v (Some c) =>
    if existsb (fun h => fst h =? c) (taken a) then a else mkacks (owed a) (owed_since a) ((c, pb_packet_id v) :: taken a)
  | O_PUBLISH v None =>
    if (pb_qos v =? 0) || existsb (fun h => snd h =? pb_packet_id v) (taken a) then a
    else mkacks (owed a) (owed_since a ++ [pb_packet_id v]) (taken a)
  | I_ACK c =>
    match find (fun h => fst h =? c) (taken a) with
    | Some h => mkacks (owed a) (owed_since a ++ [snd h]) (filter (fun h => negb (fst h =? c)) (taken a))
    | None => a
    end
  | O_SENT o => mkacks (match op_packet o with P_PUBACK _ => tl (due a) | _ => due a end) [] (taken a)
  | O_LIFE ATTEMPTING_CONNECT => mkacks [] [] []
  | _ => a
  end.
Fixpoint acks_of (l : list out) : acks := match l with [] => mkacks [] [] [] | x :: l => acks_step x (acks_of l) end.
(** the packet ids of the PUBACKs among some operations *)
Definition puback_ids (l : list op) : list N := flat_map (fun o => match op_packet o with P_PUBACK v => [pa_packet_id v] | _ => [] end) l.
(** what has become of a handle: never given out; given out for a packet id and not used; used *)
Inductive fate := UNKNOWN | OPEN (id : N) | SPENT.
Fixpoint handle_of (c : N) (l : list out) : fate :=
  match l with
  | [] => UNKNOWN
  | O_PUBLISH v (Some c') :: l => if c' =? c then OPEN (pb_packet_id v) else handle_of c l
  | I_ACK c' :: l => if c' =? c then match handle_of c l with UNKNOWN => UNKNOWN | _ => SPENT end else handle_of c l
  | _ :: l => handle_of c l
  end.
(** the assumptions of the statements about acknowledgements: no server announced a maximum packet size too small for a PUBACK (4 bytes),
    and fewer than 2^64 - 1 things have happened (handles are numbered with 64 bits) *)
Definition acks_fit (l : list out) : Prop :=
  (forall n v, In (O_LIFE (CONNECTION_SUCCESS n v)) l -> 4 <= ng_maximum_packet_size n) /\ N.of_nat (length l) < two64 - 1.
