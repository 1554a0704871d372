(** What the bytes of an MQTT 5 packet mean, written from the MQTT 5.0 specification (OASIS, 2019); independent of the code.
    [X_wire v bs] says that [bs] is a control packet carrying exactly the content [v]. Properties may come in any order. *)
From Verif Require Import Base Vli_Spec Mqtt5_Views.

(** ** Data representation (section 1.5) *)
(** two byte length, then the bytes: UTF-8 strings and binary data *)
Definition str_wire (s bs : bytes) : Prop := len s < 65536 /\ bytes_ok s /\ bs = be16 (len s) ++ s.

(** ** Properties (section 2.2.2) *)
Inductive pval := PV8 (n : N) | PV16 (n : N) | PV32 (n : N) | PVvar (n : N) | PVstr (s : bytes) | PVpair (p : user_property).
Definition property := (N * pval)%type.
Inductive pkind := K8 | K16 | K32 | Kvar | Kstr | Kpair.
(** table 2-4 *)
Definition property_table : list (N * pkind) :=
  [ (1, K8); (2, K32); (3, Kstr); (8, Kstr); (9, Kstr); (11, Kvar); (17, K32); (18, Kstr); (19, K16); (21, Kstr); (22, Kstr);
    (23, K8); (24, K32); (25, K8); (26, Kstr); (28, Kstr); (31, Kstr); (33, K16); (34, K16); (35, K16); (36, K8); (37, K8);
    (38, Kpair); (39, K32); (40, K8); (41, K8); (42, K8) ].
Inductive pval_wire : pkind -> pval -> bytes -> Prop :=
| pw8 n : n < 256 -> pval_wire K8 (PV8 n) [n]
| pw16 n : n < 65536 -> pval_wire K16 (PV16 n) (be16 n)
| pw32 n : n < 4294967296 -> pval_wire K32 (PV32 n) (be32 n)
| pwvar n bs : vli_legal n bs -> pval_wire Kvar (PVvar n) bs
| pwstr s bs : str_wire s bs -> pval_wire Kstr (PVstr s) bs
| pwpair k v bk bv : str_wire k bk -> str_wire v bv -> pval_wire Kpair (PVpair (k, v)) (bk ++ bv).
Inductive props_wire : list property -> bytes -> Prop :=
| psw_nil : props_wire [] []
| psw_cons id k v ps b bs :
    In (id, k) property_table -> pval_wire k v b -> props_wire ps bs -> props_wire ((id, v) :: ps) (id :: b ++ bs).
(** the property length, then the properties *)
Definition section_wire (ps : list property) (bs : bytes) : Prop :=
  exists l b, vli_legal (len b) l /\ props_wire ps b /\ bs = l ++ b.

(** values of the property [id]; [opt]: at most one value *)
Definition vals (id : N) (ps : list property) : list pval := map snd (filter (fun p => fst p =? id) ps).
Definition opt {A} (f : A -> pval) (o : option A) : list pval := match o with Some x => [f x] | None => [] end.
Definition only (ids : list N) (ps : list property) : Prop := Forall (fun p => In (fst p) ids) ps.

(** ** Fixed header (section 2.1): type, flags, remaining length *)
Definition frame (type flags : N) (body bs : bytes) : Prop :=
  exists l, vli_legal (len body) l /\ bs = (type * 16 + flags) :: l ++ body.
Definition b2n (b : bool) : N := if b then 1 else 0.

(** ** CONNECT (section 3.1) *)
Definition opt_str (o : option bytes) (bs : bytes) : Prop :=
  match o with Some s => str_wire s bs | None => bs = [] end.
Definition will_wire (delay : option N) (o : option will) (bs : bytes) : Prop :=
  match o with
  | None => bs = []      (* the delay has no place in the packet *)
  | Some w => exists ps bp bt bm,
      section_wire ps bp /\ str_wire (wl_topic w) bt /\ str_wire (wl_payload w) bm /\ bs = bp ++ bt ++ bm /\
      only [24; 1; 2; 3; 8; 9; 38] ps /\
      vals 24 ps = opt PV32 delay /\ vals 1 ps = opt PV8 (wl_payload_format w) /\ vals 2 ps = opt PV32 (wl_message_expiry w) /\
      vals 3 ps = opt PVstr (wl_content_type w) /\ vals 8 ps = opt PVstr (wl_response_topic w) /\
      vals 9 ps = opt PVstr (wl_correlation_data w) /\ vals 38 ps = map PVpair (wl_user_properties w)
  end.
Definition connect_flags (v : connect) : N :=
  2 * b2n (cn_clean_start v) +
  match cn_will v with Some w => 4 + 8 * wl_qos w + 32 * b2n (wl_retain w) | None => 0 end +
  64 * (match cn_password v with Some _ => 1 | None => 0 end) + 128 * (match cn_username v with Some _ => 1 | None => 0 end).
Definition connect_wire (v : connect) (bs : bytes) : Prop :=
  exists ps bp bc bw bu bpw,
    frame 1 0 (be16 4 ++ [77; 81; 84; 84] ++ [5] ++ [connect_flags v] ++ be16 (cn_keep_alive v) ++ bp ++ bc ++ bw ++ bu ++ bpw) bs /\
    cn_keep_alive v < 65536 /\ match cn_will v with Some w => wl_qos w <= 2 | None => True end /\
    section_wire ps bp /\ str_wire (cn_client_id v) bc /\ will_wire (cn_will_delay v) (cn_will v) bw /\
    opt_str (cn_username v) bu /\ opt_str (cn_password v) bpw /\
    only [17; 33; 39; 34; 25; 23; 38; 21; 22] ps /\
    vals 17 ps = opt PV32 (cn_session_expiry v) /\ vals 33 ps = opt PV16 (cn_receive_maximum v) /\
    vals 39 ps = opt PV32 (cn_maximum_packet_size v) /\ vals 34 ps = opt PV16 (cn_topic_alias_maximum v) /\
    vals 25 ps = opt PV8 (cn_request_response_info v) /\ vals 23 ps = opt PV8 (cn_request_problem_info v) /\
    vals 21 ps = opt PVstr (cn_auth_method v) /\ vals 22 ps = opt PVstr (cn_auth_data v) /\
    vals 38 ps = map PVpair (cn_user_properties v).

(** ** CONNACK (section 3.2) *)
Definition connack_wire (v : connack) (bs : bytes) : Prop :=
  exists ps bp,
    frame 2 0 ([b2n (ca_session_present v)] ++ [ca_reason_code v] ++ bp) bs /\ ca_reason_code v < 256 /\ section_wire ps bp /\
    only [17; 33; 36; 37; 39; 18; 34; 31; 38; 40; 41; 42; 19; 26; 28; 21; 22] ps /\
    vals 17 ps = opt PV32 (ca_session_expiry v) /\ vals 33 ps = opt PV16 (ca_receive_maximum v) /\
    vals 36 ps = opt PV8 (ca_maximum_qos v) /\ vals 37 ps = opt PV8 (ca_retain_available v) /\
    vals 39 ps = opt PV32 (ca_maximum_packet_size v) /\ vals 18 ps = opt PVstr (ca_assigned_client_id v) /\
    vals 34 ps = opt PV16 (ca_topic_alias_maximum v) /\ vals 31 ps = opt PVstr (ca_reason_string v) /\
    vals 38 ps = map PVpair (ca_user_properties v) /\ vals 40 ps = opt PV8 (ca_wildcard_available v) /\
    vals 41 ps = opt PV8 (ca_sub_ids_available v) /\ vals 42 ps = opt PV8 (ca_shared_available v) /\
    vals 19 ps = opt PV16 (ca_server_keep_alive v) /\ vals 26 ps = opt PVstr (ca_response_information v) /\
    vals 28 ps = opt PVstr (ca_server_reference v) /\ vals 21 ps = opt PVstr (ca_auth_method v) /\
    vals 22 ps = opt PVstr (ca_auth_data v).

(** ** PUBLISH (section 3.3) *)
Definition publish_wire (v : publish) (bs : bytes) : Prop :=
  exists ps bp bt,
    frame 3 (8 * b2n (pb_duplicate v) + 2 * pb_qos v + b2n (pb_retain v))
      (bt ++ (if pb_qos v =? 0 then [] else be16 (pb_packet_id v)) ++ bp ++ pb_payload v) bs /\
    pb_qos v <= 2 /\ (if pb_qos v =? 0 then pb_packet_id v = 0 else 0 < pb_packet_id v < 65536) /\
    bytes_ok (pb_payload v) /\ str_wire (pb_topic v) bt /\ section_wire ps bp /\
    only [1; 2; 35; 8; 9; 38; 11; 3] ps /\
    vals 1 ps = opt PV8 (pb_payload_format v) /\ vals 2 ps = opt PV32 (pb_message_expiry v) /\
    vals 35 ps = opt PV16 (pb_topic_alias v) /\ vals 8 ps = opt PVstr (pb_response_topic v) /\
    vals 9 ps = opt PVstr (pb_correlation_data v) /\ vals 11 ps = map PVvar (pb_subscription_identifiers v) /\
    vals 3 ps = opt PVstr (pb_content_type v) /\ vals 38 ps = map PVpair (pb_user_properties v).

(** ** PUBACK (section 3.4). Reason code 0 and an empty property section may be left out. *)
Definition puback_wire (v : puback) (bs : bytes) : Prop :=
  exists ps tail,
    frame 4 0 (be16 (pa_packet_id v) ++ tail) bs /\ 0 < pa_packet_id v < 65536 /\ pa_reason_code v < 256 /\
    ((tail = [] /\ pa_reason_code v = 0 /\ ps = []) \/ (tail = [pa_reason_code v] /\ ps = []) \/
     (exists bp, tail = pa_reason_code v :: bp /\ section_wire ps bp)) /\
    only [31; 38] ps /\ vals 31 ps = opt PVstr (pa_reason_string v) /\ vals 38 ps = map PVpair (pa_user_properties v).

(** ** SUBSCRIBE (section 3.8) *)
Definition subscription_wire (s : subscription) (bs : bytes) : Prop :=
  exists bt, str_wire (sn_topic_filter s) bt /\ sn_qos s <= 2 /\ sn_retain_handling s <= 2 /\
  bs = bt ++ [sn_qos s + 4 * b2n (sn_no_local s) + 8 * b2n (sn_retain_as_published s) + 16 * sn_retain_handling s].
Inductive list_wire {A} (R : A -> bytes -> Prop) : list A -> bytes -> Prop :=
| lw_nil : list_wire R [] []
| lw_cons a l b bs : R a b -> list_wire R l bs -> list_wire R (a :: l) (b ++ bs).
Definition subscribe_wire (v : subscribe) (bs : bytes) : Prop :=
  exists ps bp bl,
    frame 8 2 (be16 (sb_packet_id v) ++ bp ++ bl) bs /\ 0 < sb_packet_id v < 65536 /\ section_wire ps bp /\
    list_wire subscription_wire (sb_subscriptions v) bl /\
    only [11; 38] ps /\ vals 11 ps = opt PVvar (sb_subscription_identifier v) /\ vals 38 ps = map PVpair (sb_user_properties v).

(** ** SUBACK (section 3.9) and UNSUBACK (section 3.11) *)
Definition ack_wire (type : N) (v : suback) (bs : bytes) : Prop :=
  exists ps bp,
    frame type 0 (be16 (sa_packet_id v) ++ bp ++ sa_reason_codes v) bs /\ 0 < sa_packet_id v < 65536 /\
    bytes_ok (sa_reason_codes v) /\ section_wire ps bp /\
    only [31; 38] ps /\ vals 31 ps = opt PVstr (sa_reason_string v) /\ vals 38 ps = map PVpair (sa_user_properties v).

(** ** UNSUBSCRIBE (section 3.10) *)
Definition unsubscribe_wire (v : unsubscribe) (bs : bytes) : Prop :=
  exists ps bp bl,
    frame 10 2 (be16 (us_packet_id v) ++ bp ++ bl) bs /\ 0 < us_packet_id v < 65536 /\ section_wire ps bp /\
    list_wire str_wire (us_topic_filters v) bl /\ only [38] ps /\ vals 38 ps = map PVpair (us_user_properties v).

(** ** DISCONNECT (section 3.14). Reason code 0 and an empty property section may be left out. *)
Definition disconnect_wire (v : disconnect) (bs : bytes) : Prop :=
  exists ps tail,
    frame 14 0 tail bs /\ dc_reason_code v < 256 /\
    ((tail = [] /\ dc_reason_code v = 0 /\ ps = []) \/ (tail = [dc_reason_code v] /\ ps = []) \/
     (exists bp, tail = dc_reason_code v :: bp /\ section_wire ps bp)) /\
    only [17; 31; 28; 38] ps /\ vals 17 ps = opt PV32 (dc_session_expiry v) /\ vals 31 ps = opt PVstr (dc_reason_string v) /\
    vals 28 ps = opt PVstr (dc_server_reference v) /\ vals 38 ps = map PVpair (dc_user_properties v).

(** ** All packets *)
Definition packet_wire (p : packet5) (bs : bytes) : Prop :=
  match p with
  | P_CONNECT v => connect_wire v bs
  | P_CONNACK v => connack_wire v bs
  | P_PUBLISH v => publish_wire v bs
  | P_PUBACK v => puback_wire v bs
  | P_SUBSCRIBE v => subscribe_wire v bs
  | P_SUBACK v => ack_wire 9 v bs
  | P_UNSUBSCRIBE v => unsubscribe_wire v bs
  | P_UNSUBACK v => ack_wire 11 v bs
  | P_PINGREQ => bs = [192; 0]
  | P_PINGRESP => bs = [208; 0]
  | P_DISCONNECT v => disconnect_wire v bs
  end.
(** the delay of a will that does not exist is not on the wire *)
Definition no_stray_delay (v : connect) : Prop := cn_will v = None -> cn_will_delay v = None.
