(** Model of the packet option validation of source/v5/mqtt5_options_storage.c. [true]: AWS_OP_SUCCESS. View pointers are not NULL;
    an array pointer is NULL only if its count is 0. *)
From Verif Require Import Base Mqtt5_Views Topic_Model Encoder5_Model.

(** AWS_MQTT5_CLIENT_MAXIMUM_USER_PROPERTIES / ..._SUBSCRIPTIONS_PER_SUBSCRIBE / ..._TOPIC_FILTERS_PER_UNSUBSCRIBE, mqtt5_types.h:26-28 *)
Definition max_list : N := 1024.
Definition opt_all {A} (f : A -> bool) (o : option A) : bool := match o with Some x => f x | None => true end.
(** s_aws_mqtt5_user_property_set_validate, mqtt5_options_storage.c:134-205 *)
Definition validate_user_properties (l : list user_property) : bool :=
  if max_list <? len l then false else
  forallb (fun p =>
    if 65535 <? len (fst p) then false else
    if negb (validate_utf8_text (fst p)) then false else
    if 65535 <? len (snd p) then false else
    validate_utf8_text (snd p)) l.
(** a string that is too long from [limit] on, or is not valid text *)
Definition validate_text (limit : N) (s : bytes) : bool := if limit <=? len s then false else validate_utf8_text s.
(** aws_mqtt5_packet_publish_view_validate, 1608-1766 *)
Definition validate_publish (v : publish) : bool :=
  if 2 <? pb_qos v then false else
  if (pb_qos v =? 0) && pb_duplicate v then false else
  if (pb_qos v =? 0) && negb (pb_packet_id v =? 0) then false else
  if len (pb_topic v) =? 0 then false else
  if negb (validate_utf8_text (pb_topic v)) then false else
  if negb (is_valid_topic (pb_topic v)) then false else
  if negb (opt_all (fun a => negb (a =? 0)) (pb_topic_alias v)) then false else
  if negb (opt_all (fun f => f <=? 1) (pb_payload_format v)) then false else
  if negb (opt_all (fun f => negb (f =? 1) || validate_utf8_text (pb_payload v)) (pb_payload_format v)) then false else
  if negb (opt_all (validate_text 65535) (pb_response_topic v)) then false else
  if negb (opt_all is_valid_topic (pb_response_topic v)) then false else
  if negb (opt_all (fun d => len d <? 65535) (pb_correlation_data v)) then false else
  if negb (len (pb_subscription_identifiers v) =? 0) then false else
  if negb (opt_all (validate_text 65535) (pb_content_type v)) then false else
  validate_user_properties (pb_user_properties v).
(** The publish view a CONNECT's will points to: the fields that [will] leaves out are unset (simplification). *)
Definition will_view (w : will) : publish :=
  mkpublish (wl_payload w) 0 (wl_qos w) false (wl_retain w) (wl_topic w) (wl_payload_format w) (wl_message_expiry w) None
    (wl_response_topic w) (wl_correlation_data w) [] (wl_content_type w) (wl_user_properties w).
(** aws_mqtt5_packet_connect_view_validate, 333-462 *)
Definition validate_connect (v : connect) : bool :=
  if negb (validate_text 65536 (cn_client_id v)) then false else
  if negb (opt_all (validate_text 65536) (cn_username v)) then false else
  if negb (opt_all (fun p => len p <=? 65535) (cn_password v)) then false else
  if negb (opt_all (fun n => negb (n =? 0)) (cn_receive_maximum v)) then false else
  if negb (opt_all (fun n => negb (n =? 0)) (cn_maximum_packet_size v)) then false else
  if negb (opt_all (fun w => validate_publish (will_view w) && (len (wl_payload w) <=? 65535)) (cn_will v)) then false else
  if negb (opt_all (fun n => n <=? 1) (cn_request_problem_info v)) then false else
  if negb (opt_all (fun n => n <=? 1) (cn_request_response_info v)) then false else
  if negb (validate_user_properties (cn_user_properties v)) then false else
  match cn_auth_method v, cn_auth_data v with None, None => true | _, _ => false end.
(** enum aws_mqtt5_disconnect_reason_code, mqtt5_types.h:93-123; aws_mqtt5_disconnect_reason_code_to_c_string, mqtt5_types.c:104-177 *)
Definition disconnect_reason_codes : list N :=
  [0; 4; 128; 129; 130; 131; 135; 137; 139; 141; 142; 143; 144; 147; 148; 149; 150; 151; 152; 153; 154; 155; 156; 157; 158; 159; 160; 161; 162].
(** aws_mqtt5_packet_disconnect_view_validate, 1285-1340 *)
Definition validate_disconnect (v : disconnect) : bool :=
  if negb (existsb (N.eqb (dc_reason_code v)) disconnect_reason_codes) then false else
  if negb (opt_all (validate_text 65536) (dc_reason_string v)) then false else
  match dc_server_reference v with
  | Some _ => false
  | None => validate_user_properties (dc_user_properties v)
  end.
(** aws_mqtt5_packet_unsubscribe_view_validate, 2389-2442 *)
Definition validate_unsubscribe (v : unsubscribe) : bool :=
  if len (us_topic_filters v) =? 0 then false else
  if max_list <? len (us_topic_filters v) then false else
  if negb (forallb (fun t => validate_utf8_text t && is_valid_topic_filter t) (us_topic_filters v)) then false else
  validate_user_properties (us_user_properties v).
(** s_aws_mqtt5_validate_subscription, 2690-2752 *)
Definition validate_subscription (s : subscription) : bool :=
  if negb (validate_utf8_text (sn_topic_filter s)) then false else
  if negb (is_valid_topic_filter (sn_topic_filter s)) then false else
  if 65535 <? len (sn_topic_filter s) then false else
  if 1 <? sn_qos s then false else
  if 2 <? sn_retain_handling s then false else
  negb (sn_no_local s && is_shared_subscription (sn_topic_filter s)).
(** aws_mqtt5_packet_subscribe_view_validate, 2754-2808 *)
Definition validate_subscribe (v : subscribe) : bool :=
  if len (sb_subscriptions v) =? 0 then false else
  if max_list <? len (sb_subscriptions v) then false else
  if negb (forallb validate_subscription (sb_subscriptions v)) then false else
  if negb (opt_all (fun i => i <=? max_vli) (sb_subscription_identifier v)) then false else
  validate_user_properties (sb_user_properties v).
(** The user's packets. PINGREQ has no options; PUBACK is not described by the user: the client builds it (mqtt5_client.c:1874-1877). *)
Definition validate_packet (p : packet5) : bool :=
  match p with
  | P_CONNECT v => validate_connect v
  | P_PUBLISH v => validate_publish v
  | P_SUBSCRIBE v => validate_subscribe v
  | P_UNSUBSCRIBE v => validate_unsubscribe v
  | P_DISCONNECT v => validate_disconnect v
  | P_PINGREQ => true
  | P_PUBACK v => match v with mkpuback _ 0 None [] => true | _ => false end
  | _ => false
  end.

(** ** Checks against the negotiated settings just before sending *)
(** the settings the checks read: struct aws_mqtt5_negotiated_settings, and the session expiry of the client's CONNECT *)
Record limits := mklimits { lm_packet_size : N; lm_qos : N; lm_retain : bool; lm_connect_session_expiry : option N }.
(** aws_mqtt5_operation_validate_vs_connection_settings, 267-314, with the per type functions 1341-1367 and 1767-1796. The negotiated
    settings are valid whenever the client sends operations other than CONNECT. *)
Definition validate_vs_settings (s : limits) (p : packet5) : bool :=
  match get_encoded_size p with
  | Err _ => false
  | Ok size =>
    if lm_packet_size s <? size then false else
    match p with
    | P_PUBLISH v => if lm_qos s <? pb_qos v then false else negb (pb_retain v && negb (lm_retain s))
    | P_DISCONNECT v =>
      match dc_session_expiry v with
      | Some e => negb ((0 <? e) && match lm_connect_session_expiry s with None => true | Some c => c =? 0 end)
      | None => true
      end
    | _ => true
    end
  end.
(** s_needs_packet_id, mqtt5_client.c:2733-2751, and aws_mqtt5_operation_set_packet_id: the operation with the given packet id if it needs one *)
Definition with_packet_id (id : N) (p : packet5) : packet5 :=
  match p with
  | P_PUBLISH v => if negb (pb_qos v =? 0) && (pb_packet_id v =? 0) then
      P_PUBLISH (mkpublish (pb_payload v) id (pb_qos v) (pb_duplicate v) (pb_retain v) (pb_topic v) (pb_payload_format v) (pb_message_expiry v)
        (pb_topic_alias v) (pb_response_topic v) (pb_correlation_data v) (pb_subscription_identifiers v) (pb_content_type v) (pb_user_properties v))
      else p
  | P_SUBSCRIBE v => if sb_packet_id v =? 0 then P_SUBSCRIBE (mksubscribe id (sb_subscriptions v) (sb_subscription_identifier v) (sb_user_properties v)) else p
  | P_UNSUBSCRIBE v => if us_packet_id v =? 0 then P_UNSUBSCRIBE (mkunsubscribe id (us_topic_filters v) (us_user_properties v)) else p
  | _ => p
  end.
