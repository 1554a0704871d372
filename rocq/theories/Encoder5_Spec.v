(** Which packets MQTT 5 can express, in terms of the fields of the packet, and the length the specification gives them. *)
From Verif Require Import Base Mqtt5_Views Mqtt5_Spec.

(** packet types a client may send (section 2.1.2) *)
Definition from_client (p : packet5) : Prop :=
  match p with P_CONNACK _ | P_SUBACK _ | P_UNSUBACK _ | P_PINGRESP => False | _ => True end.
Definition expressible (p : packet5) : Prop := exists bs, packet_wire p bs.

(** ** Ranges of the fields *)
Definition o8 (o : option N) : Prop := forall x, o = Some x -> x < 256.
Definition o16 (o : option N) : Prop := forall x, o = Some x -> x < 65536.
Definition o32 (o : option N) : Prop := forall x, o = Some x -> x < 4294967296.
Definition str_ok (s : bytes) : Prop := len s < 65536 /\ bytes_ok s.
Definition ostr (o : option bytes) : Prop := forall x, o = Some x -> str_ok x.
Definition pair_ok (p : user_property) : Prop := len (fst p) < 65536 /\ len (snd p) < 65536 /\ bytes_ok (fst p) /\ bytes_ok (snd p).
Definition upairs (l : list user_property) : Prop := Forall pair_ok l.
Definition var_ok (n : N) : Prop := n <= 268435455.
Definition publish_fields (v : publish) : Prop :=
  pb_qos v <= 2 /\ (if pb_qos v =? 0 then pb_packet_id v = 0 else 0 < pb_packet_id v < 65536) /\ bytes_ok (pb_payload v) /\ str_ok (pb_topic v) /\
  o8 (pb_payload_format v) /\ o32 (pb_message_expiry v) /\ o16 (pb_topic_alias v) /\ ostr (pb_response_topic v) /\
  ostr (pb_correlation_data v) /\ Forall var_ok (pb_subscription_identifiers v) /\ ostr (pb_content_type v) /\
  upairs (pb_user_properties v).
Definition puback_fields (v : puback) : Prop :=
  0 < pa_packet_id v < 65536 /\ pa_reason_code v < 256 /\ ostr (pa_reason_string v) /\ upairs (pa_user_properties v).
Definition disconnect_fields (v : disconnect) : Prop :=
  dc_reason_code v < 256 /\ o32 (dc_session_expiry v) /\ ostr (dc_reason_string v) /\ ostr (dc_server_reference v) /\ upairs (dc_user_properties v).
Definition subscription_ok (s : subscription) : Prop := str_ok (sn_topic_filter s) /\ sn_qos s <= 2 /\ sn_retain_handling s <= 2.
Definition subscribe_fields (v : subscribe) : Prop :=
  0 < sb_packet_id v < 65536 /\ Forall subscription_ok (sb_subscriptions v) /\
  (forall x, sb_subscription_identifier v = Some x -> var_ok x) /\ upairs (sb_user_properties v).
Definition unsubscribe_fields (v : unsubscribe) : Prop :=
  0 < us_packet_id v < 65536 /\ Forall str_ok (us_topic_filters v) /\ upairs (us_user_properties v).
Definition will_fields (delay : option N) (w : will) : Prop :=
  wl_qos w <= 2 /\ str_ok (wl_topic w) /\ str_ok (wl_payload w) /\ o32 delay /\ o8 (wl_payload_format w) /\ o32 (wl_message_expiry w) /\
  ostr (wl_content_type w) /\ ostr (wl_response_topic w) /\ ostr (wl_correlation_data w) /\ upairs (wl_user_properties w).
Definition will_fields_opt (delay : option N) (o : option will) : Prop := match o with Some w => will_fields delay w | None => True end.
Definition connect_fields (v : connect) : Prop :=
  cn_keep_alive v < 65536 /\ str_ok (cn_client_id v) /\ will_fields_opt (cn_will_delay v) (cn_will v) /\ ostr (cn_username v) /\ ostr (cn_password v) /\
  o32 (cn_session_expiry v) /\ o16 (cn_receive_maximum v) /\ o32 (cn_maximum_packet_size v) /\ o16 (cn_topic_alias_maximum v) /\
  o8 (cn_request_response_info v) /\ o8 (cn_request_problem_info v) /\ ostr (cn_auth_method v) /\ ostr (cn_auth_data v) /\ upairs (cn_user_properties v).
(** every field of the packet fits its place on the wire *)
Definition fields_fit (p : packet5) : Prop :=
  match p with
  | P_CONNECT v => connect_fields v
  | P_PUBLISH v => publish_fields v
  | P_PUBACK v => puback_fields v
  | P_SUBSCRIBE v => subscribe_fields v
  | P_UNSUBSCRIBE v => unsubscribe_fields v
  | P_DISCONNECT v => disconnect_fields v
  | P_PINGREQ => True
  | _ => False
  end.

(** ** Lengths: one byte of identifier plus the value for each property *)
Definition vli_bytes (n : N) : N := if n <? 128 then 1 else if n <? 16384 then 2 else if n <? 2097152 then 3 else 4.
Definition osize {A} (n : N) (o : option A) : N := match o with Some _ => n | None => 0 end.
Definition ostr_size (o : option bytes) : N := match o with Some c => 3 + len c | None => 0 end.
Definition sum {A} (f : A -> N) (l : list A) : N := fold_right (fun a n => f a + n) 0 l.
Definition users_size (l : list user_property) : N := 5 * len l + sum (fun p => len (fst p) + len (snd p)) l.
Definition publish_props (v : publish) : N :=
  users_size (pb_user_properties v) + osize 2 (pb_payload_format v) + osize 5 (pb_message_expiry v)
            + osize 3 (pb_topic_alias v) + ostr_size (pb_response_topic v) + ostr_size (pb_correlation_data v)
            + ostr_size (pb_content_type v) + sum (fun id => 1 + vli_bytes id) (pb_subscription_identifiers v).
Definition puback_props (v : puback) : N := users_size (pa_user_properties v) + ostr_size (pa_reason_string v).
Definition disconnect_props (v : disconnect) : N :=
  users_size (dc_user_properties v) + osize 5 (dc_session_expiry v) + ostr_size (dc_server_reference v) + ostr_size (dc_reason_string v).
Definition subscribe_props (v : subscribe) : N :=
  users_size (sb_user_properties v) + match sb_subscription_identifier v with Some x => 1 + vli_bytes x | None => 0 end.
Definition will_props (delay : option N) (w : will) : N :=
  users_size (wl_user_properties w) + osize 5 delay + osize 2 (wl_payload_format w) + osize 5 (wl_message_expiry w) + ostr_size (wl_content_type w)
                       + ostr_size (wl_response_topic w) + ostr_size (wl_correlation_data w).
Definition will_length (delay : option N) (o : option will) : N :=
  match o with Some w => will_props delay w + vli_bytes (will_props delay w) + (2 + len (wl_topic w)) + (2 + len (wl_payload w)) | None => 0 end.
Definition connect_props (v : connect) : N :=
  users_size (cn_user_properties v) + osize 5 (cn_session_expiry v)
            + osize 3 (cn_receive_maximum v) + osize 5 (cn_maximum_packet_size v) + osize 3 (cn_topic_alias_maximum v)
            + osize 2 (cn_request_response_info v) + osize 2 (cn_request_problem_info v)
            + ostr_size (cn_auth_method v) + ostr_size (cn_auth_data v).
Definition opt_length (o : option bytes) : N := match o with Some c => len c + 2 | None => 0 end.
(** the remaining length of the packet in its shortest form (DISCONNECT: in the form with reason code and property length) *)
Definition remaining_length (p : packet5) : N :=
  match p with
  | P_PUBLISH v => vli_bytes (publish_props v) + (2 + len (pb_topic v)) + (if negb (pb_packet_id v =? 0) then 2 else 0) + publish_props v + len (pb_payload v)
  | P_PUBACK v => if puback_props v =? 0 then if pa_reason_code v =? 0 then 2 else 3 else vli_bytes (puback_props v) + 3 + puback_props v
  | P_DISCONNECT v => 1 + disconnect_props v + vli_bytes (disconnect_props v)
  | P_SUBSCRIBE v => vli_bytes (subscribe_props v) + (2 + subscribe_props v) +
      (sum (fun s => len (sn_topic_filter s)) (sb_subscriptions v) + 3 * len (sb_subscriptions v))
  | P_UNSUBSCRIBE v => vli_bytes (users_size (us_user_properties v)) + (2 + users_size (us_user_properties v)) +
      (sum (fun t => len t) (us_topic_filters v) + 2 * len (us_topic_filters v))
  | P_CONNECT v => 10 + (vli_bytes (connect_props v) + connect_props v) + (2 + len (cn_client_id v)) + will_length (cn_will_delay v) (cn_will v)
      + opt_length (cn_username v) + opt_length (cn_password v)
  | _ => 0
  end.

(** size of the whole packet *)
Definition wire_size (p : packet5) : N := let rl := remaining_length p in 1 + vli_bytes rl + rl.

(** ** What an encoder produces *)
From Verif Require Import TopicAlias_Model Encoder5_Model.
(** The encoder is about to produce exactly the bytes [bs], whatever buffers it is given: the buffers it filled hold a prefix of [bs], in
    order and within their capacities; when it reports that it is finished, they hold all of [bs]; as long as it does not, every buffer of at
    least four bytes has received at least one byte. *)
Definition emits (e : encoder) (bs : bytes) : Prop :=
  forall caps, exists e' out fin rest, encode_to_buffers e caps = (e', out, fin) /\ bs = concat out ++ rest /\
    (fin = true -> rest = [] /\ enc_steps e' = []) /\ (fin = false -> len (filter (N.leb 4) caps) <= len (concat out)) /\
    Forall2 (fun x c => len x <= c) out (firstn (length out) caps).
(** The packet that goes on the wire for [p]: topic and alias of a PUBLISH are those the alias resolver chose. *)
Definition resolved (e : encoder) (p : packet5) : option packet5 :=
  match p, enc_resolver e with
  | P_PUBLISH v, Some o =>
      match snd (out_publish o (pb_topic v) (pb_topic_alias v)) with SSent t a => Some (P_PUBLISH (with_topic v t a)) | _ => None end
  | _, _ => Some p
  end.
(** the encoded-size query does not answer for CONNECT *)
Definition no_size_query (q : packet5) : Prop := match q with P_CONNECT _ => True | _ => False end.
(** the resolver that chooses aliases itself *)
Definition lru_resolver (o : outbound) : Prop := match o with OLru _ _ => True | _ => False end.
(** user-given aliases are uint16_t *)
Definition op_typed (o : enc_op) : Prop := match o with EAppend (P_PUBLISH v) => o16 (pb_topic_alias v) | _ => True end.
