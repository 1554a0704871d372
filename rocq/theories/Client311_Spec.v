(** What the claims about the 3.1.1 client say, in terms of what happens: [l] is always a list of events, the newest first *)
From Verif Require Import Base TopicTree_Spec Client311_Model.

(** ** Operations *)
(** an operation is identified by the number [u] of the call that made it *)
Definition made (u : N) (l : list out) : Prop := exists id k w, In (I_MADE u id k w) l.
Definition over (u : N) (l : list out) : Prop := (exists id e, In (O_COMPLETE u id e) l) \/ In (O_PING_OVER u) l.
Definition attempted (u : N) (l : list out) : Prop := exists p ok, In (O_SEND u p ok) l.
(** how often its completion callback has been called *)
Definition completions (u : N) (l : list out) : nat := length (filter (fun x => match x with O_COMPLETE v _ _ => v =? u | _ => false end) l).
(** every event of [l] is fine, given what was before it *)
Fixpoint each (R : out -> list out -> Prop) (l : list out) : Prop := match l with [] => True | x :: m => R x m /\ each R m end.

(** ** What is known from the events *)
(** the time *)
Fixpoint clock (l : list out) : N := match l with [] => 0 | I_TICK t :: _ => t | _ :: m => clock m end.
(** is there a channel on which the server has accepted the connection? *)
Fixpoint linked (l : list out) : bool :=
  match l with [] => false | I_UP :: _ | I_DOWN _ :: _ => false | I_PACKET (CONNACK _ code) :: m => if code =? 0 then true else linked m | _ :: m => linked m end.
(** did the user ask for a clean session when they last connected? *)
Fixpoint wants_clean (l : list out) : bool := match l with [] => false | I_CONNECT c :: _ => c | _ :: m => wants_clean m end.
(** has there been no end of a clean session, nor a call asking for one, since [u] was made? *)
Fixpoint same_session (u : N) (l : list out) : Prop :=
  match l with
  | [] => False
  | I_MADE v _ _ _ :: m => v = u \/ same_session u m
  | I_CONNECT c :: m => c = false /\ same_session u m
  | I_DOWN _ :: m => wants_clean m = false /\ same_session u m
  | _ :: m => same_session u m
  end.

(** ** Packets *)
(** the packet for an operation *)
Definition carries (id : N) (k : kind) (dup : bool) (p : packet) : Prop :=
  match k with
  | K_PUBLISH qos retain topic payload => p = PUBLISH (if qos =? 0 then 0 else id) qos dup retain topic payload
  | K_SUBSCRIBE topics => p = SUBSCRIBE id topics
  | K_RESUBSCRIBE => exists topics, p = SUBSCRIBE id topics
  | K_UNSUBSCRIBE f => p = UNSUBSCRIBE id f
  | K_PING => p = PINGREQ
  end.
(** the server has just answered the packet with this id *)
Definition just_acked (u id : N) (k : kind) (l : list out) : Prop :=
  (exists p m, l = I_PACKET p :: m /\ (p = PUBACK id \/ p = PUBCOMP id \/ p = UNSUBACK id))
  \/ (exists codes m, l = O_SUBACK u codes :: I_PACKET (SUBACK id codes) :: m /\ match k with K_SUBSCRIBE topics => length codes = length topics | K_RESUBSCRIBE => True | _ => False end).
(** the reasons for which an operation can be over *)
Definition because (e : why) (u id : N) (k : kind) (w : N) (l : list out) : Prop :=
  match e with
  | OK => just_acked u id k l \/ (exists retain topic payload m, k = K_PUBLISH 0 retain topic payload /\ l = O_SEND u (PUBLISH 0 0 false retain topic payload) true :: m) \/ k = K_RESUBSCRIBE
  | E_TIMEOUT => 0 < w < two64 - 1 /\ exists newer p ok m, l = newer ++ O_SEND u p ok :: m /\ ~ attempted u newer /\ sat_add (clock m) w <= clock l
  | E_NOT_CONNECTED => retryable k = false /\ linked l = false
  | E_CLEAN_SESSION => wants_clean l = true
  | E_SEND | E_DESTROYED => True
  | _ => False
  end.

(** ** What may happen, given what happened before *)
Definition fine (x : out) (l : list out) : Prop :=
  match x with
  | I_MADE u id k w => 1 <= id <= 65535 /\ ~ made u l /\ (forall v, made v l -> v < u) /\ (forall v idv kv wv, In (I_MADE v idv kv wv) l -> ~ over v l -> idv <> id)
                       /\ (retryable k = false -> linked l = true)
  | O_SEND u p ok =>
    exists id k w, In (I_MADE u id k w) l /\ ~ over u l /\ linked l = true /\ same_session u l
      /\ (exists dup, carries id k dup p /\ (dup = true <-> attempted u l))
      /\ (attempted u l -> retryable k = true)
      /\ (~ attempted u l -> forall v, made v l -> v < u -> attempted v l \/ over v l)
  | O_COMPLETE u id e => exists k w, In (I_MADE u id k w) l /\ ~ over u l /\ because e u id k w l
  | O_PING_OVER u => (exists id w, In (I_MADE u id K_PING w) l) /\ ~ over u l
  | I_REFUSED k E_QUEUE_FULL => forall id, 1 <= id <= 65535 -> exists u k w, In (I_MADE u id k w) l /\ ~ over u l
  | O_TERMINATED => forall u, made u l -> over u l
  | _ => True
  end.

(** ** The connection *)
(** what the user has been told about the connection *)
Fixpoint phase (l : list out) : cstate :=
  match l with
  | [] => DISCONNECTED
  | I_CONNECT _ :: _ => CONNECTING
  | I_DIAL false :: m => match phase m with CONNECTING => DISCONNECTED | p => p end
  | I_DOWN _ :: m => match phase m with CONNECTING => DISCONNECTED | p => p end
  | O_CONNECTION_SUCCESS _ :: _ => CONNECTED
  | O_INTERRUPTED _ :: _ => RECONNECTING
  | I_DISCONNECT :: _ => DISCONNECTING
  | O_DISCONNECT :: _ => DISCONNECTED
  | _ :: m => phase m
  end.
(** what may happen to it, given what happened before *)
Definition proper (x : out) (l : list out) : Prop :=
  ~ In O_TERMINATED l /\
  match x with
  | I_CONNECT _ => phase l = DISCONNECTED
  | I_DIAL _ => phase l = CONNECTING \/ phase l = RECONNECTING
  | O_CONNECTION_COMPLETE OK code session => code = 0 /\ (exists m, l = I_PACKET (CONNACK session 0) :: m) /\ (phase l = CONNECTING \/ phase l = CONNECTED)
  | O_CONNECTION_COMPLETE e _ _ => phase l = DISCONNECTED \/ e = E_SEND /\ (phase l = CONNECTING \/ phase l = RECONNECTING)
  | O_CONNECTION_FAILURE e => e <> OK /\ exists m, l = O_CONNECTION_COMPLETE e 0 false :: m
  | O_CONNECTION_SUCCESS session => exists m, l = O_RESUMED session :: m \/ l = O_CONNECTION_COMPLETE OK 0 session :: m
  | O_INTERRUPTED e => e <> OK /\ phase l = CONNECTED
  | O_RESUMED session => phase l = RECONNECTING /\ exists m, l = I_PACKET (CONNACK session 0) :: m
  | I_DISCONNECT => phase l = CONNECTED \/ phase l = RECONNECTING
  | O_DISCONNECT => phase l = DISCONNECTING
  | O_CLOSED => exists m, l = O_DISCONNECT :: m
  | O_TERMINATED => phase l = DISCONNECTED
  | _ => True
  end.

(** ** Messages *)
(** the filter for which messages of the subscription [g] are delivered: that of "$share/group/filter" is "filter" *)
Definition denotes (g f : bytes) : Prop :=
  (exists c group, g = [36; 115; 104; 97; 114; 101; 47] ++ c :: group ++ 47 :: f /\ ~ In 47 group /\ f <> [])
  \/ ((forall m, g <> [36; 115; 104; 97; 114; 101; 47] ++ m) /\ f = g).
(** is there a subscription for [f]? From when its SUBSCRIBE has been sent first, until an UNSUBSCRIBE has been sent first *)
Fixpoint subscribed (f : bytes) (l : list out) : Prop :=
  match l with
  | [] => False
  | O_SEND u (SUBSCRIBE id topics) _ :: m =>
    subscribed f m \/ (~ attempted u m /\ (exists w, In (I_MADE u id (K_SUBSCRIBE topics) w) m) /\ exists g qos, In (g, qos) topics /\ denotes g f)
  | O_SEND u (UNSUBSCRIBE _ g) true :: m => subscribed f m /\ (attempted u m \/ ~ denotes g f)
  | _ :: m => subscribed f m
  end.
(** A message is delivered when its packet has just come in, for a filter that matches, once for each. A packet about messages is sent to answer one. A resubscribe asks for the filters there are subscriptions for *)
Definition rightly (x : out) (l : list out) : Prop :=
  match x with
  | O_DELIVER f topic payload =>
    exists ds id qos dup retain m, l = ds ++ I_PACKET (PUBLISH id qos dup retain topic payload) :: m /\ (forall y, In y ds -> exists g, g <> f /\ y = O_DELIVER g topic payload)
      /\ subscribed f m /\ tree_matches f topic
  | O_ANY_PUBLISH topic payload dup qos retain =>
    exists ds id m, l = ds ++ I_PACKET (PUBLISH id qos dup retain topic payload) :: m /\ (forall y, In y ds -> exists g, y = O_DELIVER g topic payload)
      /\ (forall f, subscribed f m -> tree_matches f topic -> In (O_DELIVER f topic payload) ds)
  | O_WRITE p _ =>
    match p with
    | PUBACK id => exists topic payload dup retain ds m, l = O_ANY_PUBLISH topic payload dup 1 retain :: ds ++ I_PACKET (PUBLISH id 1 dup retain topic payload) :: m /\ (forall y, In y ds -> exists g, y = O_DELIVER g topic payload)
    | PUBREC id => exists topic payload dup qos retain ds m, 2 <= qos /\ l = O_ANY_PUBLISH topic payload dup qos retain :: ds ++ I_PACKET (PUBLISH id qos dup retain topic payload) :: m /\ (forall y, In y ds -> exists g, y = O_DELIVER g topic payload)
    | PUBREL id => exists m, l = I_PACKET (PUBREC id) :: m
    | PUBCOMP id => exists m, l = I_PACKET (PUBREL id) :: m
    | CONNECT _ _ | DISCONNECT => True
    | _ => False
    end
  | O_SEND u (SUBSCRIBE id topics) _ => (exists w, In (I_MADE u id K_RESUBSCRIBE w) l) -> ~ attempted u l -> NoDup (map fst topics) /\ forall f, In f (map fst topics) <-> subscribed f l
  | _ => True
  end.
