(** Vocabulary for the properties of the MQTT 5 client which speak of time: how long it waits before it connects again, and how it keeps a
    connection alive. Traces are newest first. *)
From Verif Require Import Base Mqtt5_Views RateLimiter_Model Negotiated_Model Client5_State Client5_Model Client5_Spec.

(** ** Reconnecting *)
Definition is_life (x : out) : bool := match x with O_LIFE _ => true | _ => false end.
(** the user was told last that the client has stopped, or was told nothing yet: the next attempt is due to the user starting it *)
Fixpoint resting (l : list out) : bool :=
  match l with [] => true | O_LIFE STOPPED_EVENT :: _ => true | O_LIFE _ :: _ => false | _ :: l => resting l end.
(** how many connections and attempts have been reported lost so far *)
Fixpoint losses (l : list out) : N :=
  match l with
  | [] => 0
  | O_LIFE (CONNECTION_FAILURE _ _) :: l | O_LIFE (DISCONNECTION _ _) :: l => losses l + 1
  | _ :: l => losses l
  end.
(** how many attempts the client has made by itself since the last connection it reported *)
Fixpoint retries (l : list out) : N :=
  match l with
  | [] => 0
  | O_LIFE ATTEMPTING_CONNECT :: l => if resting l then retries l else retries l + 1
  | O_LIFE (CONNECTION_SUCCESS _ _) :: _ => 0
  | _ :: l => retries l
  end.
(** the wait in milliseconds after [n] earlier waits: the minimum, doubled [n] times, limited to what a 64 bit number holds and to the maximum *)
Definition backoff (cf : config) (n : N) : N := N.min (cf_max_delay_ms cf) (N.min (two64 - 1) (2 ^ N.min n 63 * cf_min_delay_ms cf)).
Definition wait_allowed (cf : config) (n d : N) : Prop :=
  match cf_jitter cf with
  | JITTER_NONE => d = backoff cf n
  | JITTER_FULL => d <= backoff cf n
  | JITTER_DECORRELATED =>
    d <= backoff cf n \/ N.min (cf_max_delay_ms cf) (cf_min_delay_ms cf) <= d <= N.min (cf_max_delay_ms cf) (3 * cf_min_delay_ms cf)
  end.
(** [t] plus [d] milliseconds, in nanoseconds; the largest 64 bit number stands for everything above it *)
Definition after_ms (t d : N) : N := N.min (two64 - 1) (t + d * 1000000).

(** ** Keep-alive *)
(** the time of the last ping, or of the announcement of the connection *)
Fixpoint last_ping (l : list out) : option N :=
  match l with
  | [] => None
  | O_LIFE (CONNECTION_SUCCESS _ _) :: l => clock l
  | O_SENT o :: l => if is_pingreq (op_packet o) then clock l else last_ping l
  | _ :: l => last_ping l
  end.
(** the time of the last ping, if it has not been answered on this connection *)
Fixpoint unanswered (l : list out) : option N :=
  match l with
  | [] => None
  | O_LIFE (CONNECTION_SUCCESS _ _) :: _ => None
  | I_PACKET P_PINGRESP :: _ => None
  | O_SENT o :: l => if is_pingreq (op_packet o) then clock l else unanswered l
  | _ :: l => unanswered l
  end.
(** the clock does not run backwards *)
Fixpoint ticking (l : list out) : Prop :=
  match l with
  | [] => True
  | I_TICK t :: l => ticking l /\ match clock l with Some t' => t' <= t | None => True end
  | _ :: l => ticking l
  end.
(** [t] plus [d] seconds, in nanoseconds *)
Definition after_s (t d : N) : N := N.min (two64 - 1) (t + d * 1000000000).
(** how long the client waits for the answer to a ping, in nanoseconds: as configured, but at most half the keep-alive interval *)
Definition ping_limit (cf : config) (keep_alive : N) : N :=
  let half := keep_alive * 1000000000 / 2 in
  if cf_ping_timeout_ms cf =? 0 then half else N.min (cf_ping_timeout_ms cf * 1000000) half.

(** ** Waking up *)
(** the clock never shows 0, which the client's code takes for "never" *)
Definition positive (l : list out) : Prop := Forall (fun x => match is_tick x with Some t => 0 < t | None => True end) l.
(** ... and fits in 64 bits *)
Definition bounded (l : list out) : Prop := Forall (fun x => match is_tick x with Some t => t < two64 | None => True end) l.
(** no operation was sent with a timeout so large that its deadline wraps around to 0 *)
Definition sane (cf : config) (l : list out) : Prop :=
  forall later o earlier t, l = later ++ O_SENT o :: earlier -> clock earlier = Some t -> ~ overdue cf t o 0.
Definition normal (cf : config) (l : list out) : Prop := positive l /\ bounded l /\ ticking l /\ sane cf l.
(** an operation that can be sent right away: nothing is being written, the rate limits are switched off, and part of an operation is left to
    be sent, or the first one waiting may be sent: CONNECT on a new connection, DISCONNECT when the client is to disconnect, anything on an
    established connection except, for a publish of QoS 1 or 2, when the server's receive maximum is used up *)
Definition sendable (cf : config) (s : client) : Prop :=
  pending s = false /\ cf_flow cf = false /\
  (curop s <> None \/
   exists o q, queued s = o :: q /\
   match current s with
   | MQTT_CONNECT => is_connect (op_packet o) = true
   | CLEAN_DISCONNECT => is_disconnect (op_packet o) = true
   | CONNECTED => is_acked_publish (op_packet o) = true -> 0 < tokens s
   | _ => False
   end).
(** the service task is scheduled for [t] or earlier *)
Definition scheduled_by (t : N) (s : client) : Prop := 0 < run_at s /\ run_at s <= t.
(** what the client has to do by itself at times, and that it is scheduled for it: obey stop() and start(), give up on a CONNACK, send what
    can be sent, ping, give up on a ping or on an acknowledgement, connect again *)
Definition awake (cf : config) (now : N) (s : client) : Prop :=
  match current s with
  | STOPPED => desired s <> D_STOPPED -> scheduled_by now s
  | MQTT_CONNECT =>
    (wants_connection s = false -> scheduled_by now s) /\
    (wants_connection s = true -> connack_to s <> 0 -> scheduled_by (connack_to s) s /\ (sendable cf s -> scheduled_by now s))
  | CONNECTED =>
    (wants_connection s = false \/ sendable cf s -> scheduled_by now s) /\
    (wants_connection s = true -> scheduled_by (ping s) s /\ (ping_to s <> 0 -> scheduled_by (ping_to s) s) /\
      forall d u, In (d, u) (pq s) -> scheduled_by d s)
  | CLEAN_DISCONNECT => (sendable cf s -> scheduled_by now s) /\ forall d u, In (d, u) (pq s) -> scheduled_by d s
  | PENDING_RECONNECT => (wants_connection s = false -> scheduled_by now s) /\ (wants_connection s = true -> scheduled_by (reconnect_at s) s)
  | CONNECTING | CHANNEL_SHUTDOWN | TERMINATED => True
  end.
