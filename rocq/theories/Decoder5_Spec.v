(** What a client should make of a byte stream from an MQTT 5 server, independent of how the stream is cut and of the decoder.
    [X_accepted v bs]: the packet [bs] says [v]. It is the wire format of Mqtt5_Spec.v, taken liberally: a property that must not be repeated
    may be, the last one counts; packet identifiers may be 0; in a PUBLISH, QoS may be 3; in SUBACK and UNSUBACK, the flags may be anything
    and ([overrun]) the property length may exceed the packet, which is then read as reason codes only. *)
From Verif Require Import Base Vli_Spec Mqtt5_Views Mqtt5_Spec TopicAlias_Model.

Definition latest {A} (f : A -> pval) (o : option A) (l : list pval) : Prop :=
  match o with Some x => exists l', l = l' ++ [f x] | None => l = [] end.
Definition connack_accepted (v : connack) (bs : bytes) : Prop :=
  exists ps bp,
    frame 2 0 ([b2n (ca_session_present v)] ++ [ca_reason_code v] ++ bp) bs /\ section_wire ps bp /\
    only [17; 33; 36; 37; 39; 18; 34; 31; 38; 40; 41; 42; 19; 26; 28; 21; 22] ps /\
    latest PV32 (ca_session_expiry v) (vals 17 ps) /\ latest PV16 (ca_receive_maximum v) (vals 33 ps) /\
    latest PV8 (ca_maximum_qos v) (vals 36 ps) /\ latest PV8 (ca_retain_available v) (vals 37 ps) /\
    latest PV32 (ca_maximum_packet_size v) (vals 39 ps) /\ latest PVstr (ca_assigned_client_id v) (vals 18 ps) /\
    latest PV16 (ca_topic_alias_maximum v) (vals 34 ps) /\ latest PVstr (ca_reason_string v) (vals 31 ps) /\
    vals 38 ps = map PVpair (ca_user_properties v) /\ latest PV8 (ca_wildcard_available v) (vals 40 ps) /\
    latest PV8 (ca_sub_ids_available v) (vals 41 ps) /\ latest PV8 (ca_shared_available v) (vals 42 ps) /\
    latest PV16 (ca_server_keep_alive v) (vals 19 ps) /\ latest PVstr (ca_response_information v) (vals 26 ps) /\
    latest PVstr (ca_server_reference v) (vals 28 ps) /\ latest PVstr (ca_auth_method v) (vals 21 ps) /\
    latest PVstr (ca_auth_data v) (vals 22 ps).
Definition publish_accepted (v : publish) (bs : bytes) : Prop :=
  exists ps bp bt,
    frame 3 (8 * b2n (pb_duplicate v) + 2 * pb_qos v + b2n (pb_retain v))
      (bt ++ (if pb_qos v =? 0 then [] else be16 (pb_packet_id v)) ++ bp ++ pb_payload v) bs /\
    pb_qos v <= 3 /\ (if pb_qos v =? 0 then pb_packet_id v = 0 else pb_packet_id v < 65536) /\
    str_wire (pb_topic v) bt /\ section_wire ps bp /\
    only [1; 2; 35; 8; 9; 38; 11; 3] ps /\
    latest PV8 (pb_payload_format v) (vals 1 ps) /\ latest PV32 (pb_message_expiry v) (vals 2 ps) /\
    latest PV16 (pb_topic_alias v) (vals 35 ps) /\ latest PVstr (pb_response_topic v) (vals 8 ps) /\
    latest PVstr (pb_correlation_data v) (vals 9 ps) /\ vals 11 ps = map PVvar (pb_subscription_identifiers v) /\
    latest PVstr (pb_content_type v) (vals 3 ps) /\ vals 38 ps = map PVpair (pb_user_properties v).
Definition puback_accepted (v : puback) (bs : bytes) : Prop :=
  exists ps tail,
    frame 4 0 (be16 (pa_packet_id v) ++ tail) bs /\ pa_packet_id v < 65536 /\
    ((tail = [] /\ pa_reason_code v = 0 /\ ps = []) \/ (tail = [pa_reason_code v] /\ ps = []) \/
     (exists bp, tail = pa_reason_code v :: bp /\ section_wire ps bp)) /\
    only [31; 38] ps /\ latest PVstr (pa_reason_string v) (vals 31 ps) /\ vals 38 ps = map PVpair (pa_user_properties v).
Definition overrun (v : suback) (bs : bytes) : Prop :=
  exists n, vli_legal n bs /\ len (sa_reason_codes v) < n /\ sa_reason_string v = None /\ sa_user_properties v = [].
Definition ack_accepted (type : N) (v : suback) (bs : bytes) : Prop :=
  exists flags bp, flags < 16 /\ frame type flags (be16 (sa_packet_id v) ++ bp ++ sa_reason_codes v) bs /\ sa_packet_id v < 65536 /\
    (overrun v bp \/ exists ps, section_wire ps bp /\
      only [31; 38] ps /\ latest PVstr (sa_reason_string v) (vals 31 ps) /\ vals 38 ps = map PVpair (sa_user_properties v)).
Definition disconnect_accepted (v : disconnect) (bs : bytes) : Prop :=
  exists ps tail,
    frame 14 0 tail bs /\
    ((tail = [] /\ dc_reason_code v = 0 /\ ps = []) \/ (tail = [dc_reason_code v] /\ ps = []) \/
     (exists bp, tail = dc_reason_code v :: bp /\ section_wire ps bp)) /\
    only [17; 31; 28; 38] ps /\ latest PV32 (dc_session_expiry v) (vals 17 ps) /\ latest PVstr (dc_reason_string v) (vals 31 ps) /\
    latest PVstr (dc_server_reference v) (vals 28 ps) /\ vals 38 ps = map PVpair (dc_user_properties v).
(** a PINGRESP is two bytes, though the length 0 may be written in up to four *)
Definition pingresp_accepted (bs : bytes) : Prop := frame 13 0 [] bs.
Definition packet_accepted (p : packet5) (bs : bytes) : Prop :=
  match p with
  | P_CONNACK v => connack_accepted v bs
  | P_PUBLISH v => publish_accepted v bs
  | P_PUBACK v => puback_accepted v bs
  | P_SUBACK v => ack_accepted 9 v bs
  | P_UNSUBACK v => ack_accepted 11 v bs
  | P_PINGRESP => pingresp_accepted bs
  | P_DISCONNECT v => disconnect_accepted v bs
  | _ => False
  end.
Definition from_server (p : packet5) : Prop :=
  match p with P_CONNECT _ | P_SUBSCRIBE _ | P_UNSUBSCRIBE _ | P_PINGREQ => False | _ => True end.
(** the packet a topic alias makes of it: C19 says what [in_publish] does *)
Definition set_topic (v : publish) (t : bytes) : publish :=
  mkpublish (pb_payload v) (pb_packet_id v) (pb_qos v) (pb_duplicate v) (pb_retain v) t (pb_payload_format v) (pb_message_expiry v) (pb_topic_alias v)
    (pb_response_topic v) (pb_correlation_data v) (pb_subscription_identifiers v) (pb_content_type v) (pb_user_properties v).
Definition resolve (a : in_state) (p : packet5) : in_state * option packet5 :=
  match p with
  | P_PUBLISH v => let (a, t) := in_publish a (pb_topic v) (pb_topic_alias v) in (a, option_map (fun t => P_PUBLISH (set_topic v t)) t)
  | _ => (a, Some p)
  end.

(** what comes before the property length of CONNACK, PUBLISH, PUBACK and DISCONNECT *)
Definition before_properties (b : N) (head : bytes) : Prop :=
  (b / 16 = 2 /\ len head = 2) \/
  (b / 16 = 3 /\ exists topic bt id, str_wire topic bt /\ head = bt ++ id /\ ((N.land (N.shiftr b 1) 3 = 0 /\ id = []) \/ (N.land (N.shiftr b 1) 3 <> 0 /\ len id = 2))) \/
  (b / 16 = 4 /\ len head = 3) \/
  (b / 16 = 14 /\ len head = 1).

(** ** Streams *)
(** first bytes with a packet type a server may send (AUTH, PUBREC, PUBREL and PUBCOMP are not among those this client handles) *)
Definition server_byte (b : N) : Prop := In (b / 16) [2; 3; 4; 9; 11; 13; 14].
Definition frame5 (pkt : bytes) : Prop := exists b l body, pkt = b :: l ++ body /\ vli_legal (len body) l /\ server_byte b.
(** a packet type that cannot come, or four continuation bytes *)
Definition malformed5 (s : bytes) : Prop :=
  exists b r, s = b :: r /\ (~ server_byte b \/ exists p q, r = p ++ q /\ len p = 4 /\ Forall (fun x => 128 <= x) p).
Definition partial5 (s : bytes) : Prop := ~ malformed5 s /\ forall pkt rest, s = pkt ++ rest -> ~ frame5 pkt.

Section Spec.
Variable H : Type.
Variable callback : packet5 -> in_state * H -> (in_state * H) * bool.
Inductive outcome5 := Waiting5 (pending : bytes) | Failed5.
(** [consume5 s w w' o]: reading the stream [s] packet by packet, in order, hands each packet to the callback, until a packet is not
    acceptable, its topic alias cannot be resolved, the callback fails or the stream is malformed ([Failed5]) or only a part of a packet is
    left ([Waiting5]). *)
Inductive consume5 : bytes -> in_state * H -> in_state * H -> outcome5 -> Prop :=
| consume5_wait s w : partial5 s -> consume5 s w w (Waiting5 s)
| consume5_bad s w : malformed5 s -> consume5 s w w Failed5
| consume5_ok pkt rest p a h a1 p1 w2 w3 o :
    packet_accepted p pkt -> resolve a p = (a1, Some p1) -> callback p1 (a1, h) = (w2, true) -> consume5 rest w2 w3 o ->
    consume5 (pkt ++ rest) (a, h) w3 o
| consume5_reject pkt rest w : frame5 pkt -> (forall p, ~ packet_accepted p pkt) -> consume5 (pkt ++ rest) w w Failed5
| consume5_alias pkt rest p a h a1 : packet_accepted p pkt -> resolve a p = (a1, None) -> consume5 (pkt ++ rest) (a, h) (a1, h) Failed5
| consume5_fail pkt rest p a h a1 p1 w2 :
    packet_accepted p pkt -> resolve a p = (a1, Some p1) -> callback p1 (a1, h) = (w2, false) -> consume5 (pkt ++ rest) (a, h) w2 Failed5.
(** handing a list of packets to the callback, in order, until one fails *)
Fixpoint deliver (ps : list packet5) (w : in_state * H) : (in_state * H) * bool :=
  match ps with
  | [] => (w, true)
  | p :: ps =>
    match resolve (fst w) p with
    | (a, Some p) => match callback p (a, snd w) with (w, true) => deliver ps w | (w, false) => (w, false) end
    | (a, None) => ((a, snd w), false)
    end
  end.
End Spec.
