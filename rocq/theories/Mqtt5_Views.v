(** The packet views of include/aws/mqtt/v5/mqtt5_types.h as plain data: what a user or a peer describes. A pointer that may be
    NULL is an [option]; a cursor is its bytes; an array with its count is a list; enums, uint8_t, uint16_t, uint32_t are [N]. *)
From Verif Require Import Base.

(** struct aws_mqtt5_user_property, mqtt5_types.h *)
Definition user_property := (bytes * bytes)%type.

(** struct aws_mqtt5_packet_publish_view, mqtt5_types.h:346-375 *)
Record publish := mkpublish {
  pb_payload : bytes; pb_packet_id : N; pb_qos : N; pb_duplicate : bool; pb_retain : bool; pb_topic : bytes;
  pb_payload_format : option N; pb_message_expiry : option N; pb_topic_alias : option N; pb_response_topic : option bytes;
  pb_correlation_data : option bytes; pb_subscription_identifiers : list N; pb_content_type : option bytes;
  pb_user_properties : list user_property }.

(** the will of a CONNECT packet: those fields of the publish view it points to that CONNECT uses (mqtt5_types.h:401) *)
Record will := mkwill {
  wl_payload : bytes; wl_qos : N; wl_retain : bool; wl_topic : bytes; wl_payload_format : option N; wl_message_expiry : option N;
  wl_response_topic : option bytes; wl_correlation_data : option bytes; wl_content_type : option bytes;
  wl_user_properties : list user_property }.

(** struct aws_mqtt5_packet_connect_view, mqtt5_types.h:382-409 *)
Record connect := mkconnect {
  cn_keep_alive : N; cn_client_id : bytes; cn_username : option bytes; cn_password : option bytes; cn_clean_start : bool;
  cn_session_expiry : option N; cn_request_response_info : option N; cn_request_problem_info : option N;
  cn_receive_maximum : option N; cn_topic_alias_maximum : option N; cn_maximum_packet_size : option N;
  cn_will_delay : option N; cn_will : option will; cn_user_properties : list user_property;
  cn_auth_method : option bytes; cn_auth_data : option bytes }.

(** struct aws_mqtt5_packet_puback_view *)
Record puback := mkpuback {
  pa_packet_id : N; pa_reason_code : N; pa_reason_string : option bytes; pa_user_properties : list user_property }.

(** struct aws_mqtt5_subscription_view *)
Record subscription := mksubscription {
  sn_topic_filter : bytes; sn_qos : N; sn_no_local : bool; sn_retain_as_published : bool; sn_retain_handling : N }.

(** struct aws_mqtt5_packet_subscribe_view *)
Record subscribe := mksubscribe {
  sb_packet_id : N; sb_subscriptions : list subscription; sb_subscription_identifier : option N;
  sb_user_properties : list user_property }.

(** struct aws_mqtt5_packet_unsubscribe_view *)
Record unsubscribe := mkunsubscribe {
  us_packet_id : N; us_topic_filters : list bytes; us_user_properties : list user_property }.

(** struct aws_mqtt5_packet_disconnect_view *)
Record disconnect := mkdisconnect {
  dc_reason_code : N; dc_session_expiry : option N; dc_reason_string : option bytes; dc_user_properties : list user_property;
  dc_server_reference : option bytes }.

(** struct aws_mqtt5_packet_connack_view *)
Record connack := mkconnack {
  ca_session_present : bool; ca_reason_code : N; ca_session_expiry : option N; ca_receive_maximum : option N;
  ca_maximum_qos : option N; ca_retain_available : option N; ca_maximum_packet_size : option N;
  ca_assigned_client_id : option bytes; ca_topic_alias_maximum : option N; ca_reason_string : option bytes;
  ca_user_properties : list user_property; ca_wildcard_available : option N; ca_sub_ids_available : option N;
  ca_shared_available : option N; ca_server_keep_alive : option N; ca_response_information : option bytes;
  ca_server_reference : option bytes; ca_auth_method : option bytes; ca_auth_data : option bytes }.

(** struct aws_mqtt5_packet_suback_view / struct aws_mqtt5_packet_unsuback_view *)
Record suback := mksuback {
  sa_packet_id : N; sa_reason_string : option bytes; sa_user_properties : list user_property; sa_reason_codes : list N }.

(** a packet with its type: enum aws_mqtt5_packet_type with the view the void pointer points to *)
Inductive packet5 :=
| P_CONNECT (v : connect) | P_CONNACK (v : connack) | P_PUBLISH (v : publish) | P_PUBACK (v : puback)
| P_SUBSCRIBE (v : subscribe) | P_SUBACK (v : suback) | P_UNSUBSCRIBE (v : unsubscribe) | P_UNSUBACK (v : suback)
| P_PINGREQ | P_PINGRESP | P_DISCONNECT (v : disconnect).
