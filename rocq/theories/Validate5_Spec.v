(** What the MQTT 5.0 specification and this client's documented limits allow a user to ask for, independent of the code. *)
From Verif Require Import Base Mqtt5_Views Topic_Spec.

(** ** The C types of the options: bytes, uint8_t, uint16_t, uint32_t *)
Definition obytes (o : option bytes) : Prop := forall x, o = Some x -> bytes_ok x.
Definition obelow (n : N) (o : option N) : Prop := forall x, o = Some x -> x < n.
Definition upbytes (l : list user_property) : Prop := Forall (fun p => bytes_ok (fst p) /\ bytes_ok (snd p)) l.
Definition will_typed (w : will) : Prop :=
  bytes_ok (wl_payload w) /\ bytes_ok (wl_topic w) /\ obelow 4294967296 (wl_message_expiry w) /\ obytes (wl_response_topic w) /\
  obytes (wl_correlation_data w) /\ obytes (wl_content_type w) /\ upbytes (wl_user_properties w).
Definition typed (p : packet5) : Prop :=
  match p with
  | P_CONNECT v =>
    cn_keep_alive v < 65536 /\ bytes_ok (cn_client_id v) /\ obytes (cn_username v) /\ obytes (cn_password v) /\
    obelow 4294967296 (cn_session_expiry v) /\ obelow 65536 (cn_receive_maximum v) /\ obelow 65536 (cn_topic_alias_maximum v) /\
    obelow 4294967296 (cn_maximum_packet_size v) /\ obelow 4294967296 (cn_will_delay v) /\
    (forall w, cn_will v = Some w -> will_typed w) /\ upbytes (cn_user_properties v)
  | P_PUBLISH v =>
    pb_packet_id v < 65536 /\ bytes_ok (pb_payload v) /\ bytes_ok (pb_topic v) /\ obelow 4294967296 (pb_message_expiry v) /\
    obelow 65536 (pb_topic_alias v) /\ obytes (pb_response_topic v) /\ obytes (pb_correlation_data v) /\ obytes (pb_content_type v) /\
    upbytes (pb_user_properties v)
  | P_PUBACK v => pa_packet_id v < 65536
  | P_SUBSCRIBE v => sb_packet_id v < 65536 /\ Forall (fun s => bytes_ok (sn_topic_filter s)) (sb_subscriptions v) /\ upbytes (sb_user_properties v)
  | P_UNSUBSCRIBE v => us_packet_id v < 65536 /\ Forall bytes_ok (us_topic_filters v) /\ upbytes (us_user_properties v)
  | P_DISCONNECT v => obelow 4294967296 (dc_session_expiry v) /\ obytes (dc_reason_string v) /\ upbytes (dc_user_properties v)
  | _ => True
  end.
(** A packet that needs a packet identifier has one. *)
Definition has_packet_id (p : packet5) : Prop :=
  match p with
  | P_PUBLISH v => pb_qos v = 0 \/ 0 < pb_packet_id v
  | P_PUBACK v => 0 < pa_packet_id v
  | P_SUBSCRIBE v => 0 < sb_packet_id v
  | P_UNSUBSCRIBE v => 0 < us_packet_id v
  | _ => True
  end.

(** ** Rules for packets a client sends (MQTT 5.0, sections 1.5.4, 3.1, 3.3, 3.8, 3.10, 3.14, 4.7, 4.8.2) *)
Definition text (s : bytes) : Prop := len s <= 65535 /\ mqtt_text s.
Definition otext (o : option bytes) : Prop := forall s, o = Some s -> text s.
Definition legal_properties (l : list user_property) : Prop := len l <= 1024 /\ Forall (fun p => text (fst p) /\ text (snd p)) l.
Definition shared_filter (t : bytes) : Prop := exists s g r, shared_parts t s g r /\ topic_filter r.
(** [short]: the client does not take the longest strings MQTT could carry in these three fields *)
Definition short (o : option bytes) : Prop := forall s, o = Some s -> len s <= 65534.
Definition legal_publish (v : publish) : Prop :=
  pb_qos v <= 2 /\ (pb_qos v = 0 -> pb_duplicate v = false /\ pb_packet_id v = 0) /\ topic_name (pb_topic v) /\
  pb_topic_alias v <> Some 0 /\
  (pb_payload_format v = None \/ pb_payload_format v = Some 0 \/ (pb_payload_format v = Some 1 /\ mqtt_text (pb_payload v))) /\
  (forall t, pb_response_topic v = Some t -> topic_name t) /\ short (pb_response_topic v) /\ short (pb_correlation_data v) /\
  pb_subscription_identifiers v = [] /\ otext (pb_content_type v) /\ short (pb_content_type v) /\ legal_properties (pb_user_properties v).
(** the message a will stands for *)
Definition will_message (w : will) : publish :=
  mkpublish (wl_payload w) 0 (wl_qos w) false (wl_retain w) (wl_topic w) (wl_payload_format w) (wl_message_expiry w) None
    (wl_response_topic w) (wl_correlation_data w) [] (wl_content_type w) (wl_user_properties w).
Definition flag (o : option N) : Prop := o = None \/ o = Some 0 \/ o = Some 1.
Definition legal_connect (v : connect) : Prop :=
  text (cn_client_id v) /\ otext (cn_username v) /\ (forall s, cn_password v = Some s -> len s <= 65535) /\
  cn_receive_maximum v <> Some 0 /\ cn_maximum_packet_size v <> Some 0 /\
  (forall w, cn_will v = Some w -> legal_publish (will_message w) /\ len (wl_payload w) <= 65535) /\
  flag (cn_request_problem_info v) /\ flag (cn_request_response_info v) /\ legal_properties (cn_user_properties v) /\
  cn_auth_method v = None /\ cn_auth_data v = None.
Definition legal_subscription (s : subscription) : Prop :=
  topic_filter (sn_topic_filter s) /\ sn_qos s <= 1 /\ sn_retain_handling s <= 2 /\ (sn_no_local s = true -> ~ shared_filter (sn_topic_filter s)).
Definition legal_subscribe (v : subscribe) : Prop :=
  1 <= len (sb_subscriptions v) <= 1024 /\ Forall legal_subscription (sb_subscriptions v) /\
  (forall i, sb_subscription_identifier v = Some i -> i <= 268435455) /\ legal_properties (sb_user_properties v).
Definition legal_unsubscribe (v : unsubscribe) : Prop :=
  1 <= len (us_topic_filters v) <= 1024 /\ Forall topic_filter (us_topic_filters v) /\ legal_properties (us_user_properties v).
(** table 3-10; 4 (disconnect with will) to 162 *)
Definition disconnect_reasons : list N :=
  [0; 4; 128; 129; 130; 131; 135; 137; 139; 141; 142; 143; 144; 147; 148; 149; 150; 151; 152; 153; 154; 155; 156; 157; 158; 159; 160; 161; 162].
Definition legal_disconnect (v : disconnect) : Prop :=
  In (dc_reason_code v) disconnect_reasons /\ otext (dc_reason_string v) /\ dc_server_reference v = None /\ legal_properties (dc_user_properties v).
