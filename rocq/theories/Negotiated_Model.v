(** Model of the negotiated settings: source/v5/mqtt5_utils.c:112-264 and how mqtt5_client.c drives them. *)
From Verif Require Import Base Mqtt5_Views.

(** struct aws_mqtt5_negotiated_settings, include/aws/mqtt/v5/mqtt5_client.h *)
Record negotiated := mkneg {
  ng_maximum_qos : N; ng_session_expiry : N; ng_receive_maximum : N; ng_maximum_packet_size : N;
  ng_alias_maximum_to_server : N; ng_alias_maximum_to_client : N; ng_keep_alive : N;
  ng_retain : bool; ng_wildcard : bool; ng_sub_ids : bool; ng_shared : bool; ng_rejoined : bool; ng_client_id : bytes }.

(** aws_mqtt5_negotiated_settings_init, 112-125: a zeroed struct (aws_mem_calloc of the client) with the configured client id *)
Definition ng_init (client_id : bytes) : negotiated := mkneg 0 0 0 0 0 0 0 false false false false false client_id.

(** aws_mqtt5_negotiated_settings_reset, 161-201. The client id survives. AWS_MQTT5_MAXIMUM_PACKET_SIZE is
    5 + 268435455 (mqtt5_utils.h:13-18). *)
Definition ng_reset (s : negotiated) (v : connect) : negotiated :=
  mkneg 1
    (match cn_session_expiry v with Some x => x | None => 0 end)
    65535 268435460
    0
    (match cn_topic_alias_maximum v with Some x => x | None => 0 end)
    (cn_keep_alive v)
    true true true true false
    (ng_client_id s).

Definition or_else (o : option N) (d : N) : N := match o with Some x => x | None => d end.
Definition or_flag (o : option N) (d : bool) : bool := match o with Some x => negb (x =? 0) | None => d end.
(** the uint16_t fields *)
Definition or_else16 (o : option N) (d : N) : N := match o with Some x => x mod 65536 | None => d end.
(** aws_mqtt5_negotiated_settings_apply_client_id, 143-154: only when no client id is known yet *)
Definition apply_client_id (s : bytes) (o : option bytes) : bytes :=
  match o with Some c => if len s =? 0 then s ++ c else s | None => s end.
(** aws_mqtt5_negotiated_settings_apply_connack, 203-264 *)
Definition ng_apply (s : negotiated) (v : connack) : negotiated :=
  mkneg
    (match ca_maximum_qos v with Some q => if q <? ng_maximum_qos s then q else ng_maximum_qos s | None => ng_maximum_qos s end)
    (or_else (ca_session_expiry v) (ng_session_expiry s))
    (or_else16 (ca_receive_maximum v) (ng_receive_maximum s))
    (or_else (ca_maximum_packet_size v) (ng_maximum_packet_size s))
    (or_else16 (ca_topic_alias_maximum v) (ng_alias_maximum_to_server s))
    (ng_alias_maximum_to_client s)
    (or_else16 (ca_server_keep_alive v) (ng_keep_alive s))
    (or_flag (ca_retain_available v) (ng_retain s))
    (or_flag (ca_wildcard_available v) (ng_wildcard s))
    (or_flag (ca_sub_ids_available v) (ng_sub_ids s))
    (or_flag (ca_shared_available v) (ng_shared s))
    (ca_session_present v)
    (apply_client_id (ng_client_id s) (ca_assigned_client_id v)).

(** One connection attempt of a client: the reset while building the CONNECT packet (mqtt5_client.c:1233-1234: the packet then carries
    the client id known so far) and, if a successful CONNACK arrives, its application (1750). *)
Inductive ng_event := NgConnect (v : connect) | NgConnack (v : connack).
Definition ng_step (s : negotiated) (e : ng_event) : negotiated :=
  match e with NgConnect v => ng_reset s v | NgConnack v => ng_apply s v end.
Definition ng_run (s : negotiated) (l : list ng_event) : negotiated := fold_left ng_step l s.
