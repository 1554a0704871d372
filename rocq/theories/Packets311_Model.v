(** Model of source/packets.c (MQTT 3.1.1 packets: init, encode, decode). *)
From Verif Require Import Base Fixed311_Model.

(** size_t arithmetic (64 bit) *)
Definition add64 (a b : N) : N := (a + b) mod 2 ^ 64.
Definition sub64 (a b : N) : N := (a + 2 ^ 64 - b) mod 2 ^ 64.

(** source/packets.c:8-14 *)
Definition S_PROTOCOL_LEVEL := 4.
Definition S_BIT_1_FLAGS := 2.
Definition s_protocol_name : bytes := [77; 81; 84; 84].  (* "MQTT" *)

(** s_sizeof_encoded_buffer, source/packets.c:16-18 *)
Definition sizeof_encoded_buffer (s : bytes) : N := 2 + len s.

(** s_encode_buffer, source/packets.c:20-41. On failure the buffer keeps what was already written: the C function may have
    written the length prefix before failing to write the data, so the model returns the buffer along with the outcome. *)
Definition encode_buffer_st (b : buf) (s : bytes) : buf * option err :=
  if 65535 <? len s then (b, Some E_BUFFER_TOO_BIG) else
  match bwrite_be16 b (len s) with
  | Err e => (b, Some e)
  | Ok b1 => match bwrite b1 s with Err e => (b1, Some e) | Ok b2 => (b2, None) end
  end.
Definition encode_buffer (b : buf) (s : bytes) : res buf :=
  match encode_buffer_st b s with (b', None) => Ok b' | (_, Some e) => Err e end.

(** s_decode_buffer, source/packets.c:43-58: the result of aws_byte_cursor_advance is not checked. *)
Definition decode_buffer (cur : bytes) : res (bytes * bytes) :=
  match read_be16 cur with
  | None => Err E_SHORT_BUFFER
  | Some (n, cur) => Ok (advance cur n)
  end.

(** ** Ack without payload: struct aws_mqtt_packet_ack, s_ack_init 63-73, encode 75-96, decode 98-125 *)
Record packet_ack := mkack { ack_fh : fixed_header; ack_id : N }.
Definition ack_init (type id : N) : packet_ack := mkack (mkfh type 2 0) id.
Definition puback_init id := ack_init PT_PUBACK id.       (* 612-617 *)
Definition pubrec_init id := ack_init PT_PUBREC id.       (* 622-627 *)
Definition pubrel_init id := mkack (mkfh PT_PUBREL 2 S_BIT_1_FLAGS) id.  (* 632-638 *)
Definition pubcomp_init id := ack_init PT_PUBCOMP id.     (* 643-648 *)
Definition unsuback_init id := ack_init PT_UNSUBACK id.   (* 1078-1083 *)
Definition ack_encode (b : buf) (p : packet_ack) : res buf :=
  do b <- fixed_header_encode b (ack_fh p);
  bwrite_be16 b (ack_id p).
Definition required_flags (t : N) : N := if packet_has_flags t then S_BIT_1_FLAGS else 0.
Definition ack_decode (cur : bytes) : res (packet_ack * bytes) :=
  do (fh, cur) <- fixed_header_decode cur;
  if negb (fh_flags fh =? required_flags (fh_type fh)) then Err E_INVALID_RESERVED_BITS else
  do (id, cur) <- of_opt E_SHORT_BUFFER (read_be16 cur);
  Ok (mkack fh id, cur).

(** ** Connect: struct aws_mqtt_packet_connect, include/aws/mqtt/private/packets.h:63-82 *)
Record packet_connect := mkconnect {
  cn_fh : fixed_header; cn_clean : bool; cn_has_will : bool; cn_will_retain : bool; cn_has_password : bool;
  cn_has_username : bool; cn_keep_alive : N; cn_will_qos : N; cn_client_id : bytes; cn_will_topic : bytes;
  cn_will_message : bytes; cn_username : bytes; cn_password : bytes }.
(** aws_mqtt_packet_connect_init, 130-150 *)
Definition connect_init (client_id : bytes) (clean : bool) (keep_alive : N) : packet_connect :=
  mkconnect (mkfh PT_CONNECT (add64 10 (sizeof_encoded_buffer client_id)) 0)
    clean false false false false keep_alive 0 client_id [] [] [] [].
Definition set_rem (h : fixed_header) (n : N) : fixed_header := mkfh (fh_type h) n (fh_flags h).
(** aws_mqtt_packet_connect_add_credentials, 152-186 *)
Definition connect_add_credentials (p : packet_connect) (username password : bytes) : packet_connect :=
  let r := fh_rem (cn_fh p) in
  let r := if cn_has_username p then r else add64 r 2 in
  let r := add64 r (sub64 (len username) (len (cn_username p))) in
  if 0 <? len password then
    let r := if cn_has_password p then r else add64 r 2 in
    let r := add64 r (sub64 (len password) (len (cn_password p))) in
    mkconnect (set_rem (cn_fh p) r) (cn_clean p) (cn_has_will p) (cn_will_retain p) true true (cn_keep_alive p)
      (cn_will_qos p) (cn_client_id p) (cn_will_topic p) (cn_will_message p) username password
  else
    mkconnect (set_rem (cn_fh p) r) (cn_clean p) (cn_has_will p) (cn_will_retain p) (cn_has_password p) true (cn_keep_alive p)
      (cn_will_qos p) (cn_client_id p) (cn_will_topic p) (cn_will_message p) username (cn_password p).
(** aws_mqtt_packet_connect_add_will, 188-204 *)
Definition connect_add_will (p : packet_connect) (topic : bytes) (qos : N) (retain : bool) (payload : bytes) : packet_connect :=
  mkconnect (set_rem (cn_fh p) (add64 (fh_rem (cn_fh p)) (sizeof_encoded_buffer topic + sizeof_encoded_buffer payload)))
    (cn_clean p) true retain (cn_has_password p) (cn_has_username p) (cn_keep_alive p) qos (cn_client_id p)
    topic payload (cn_username p) (cn_password p).
Definition bit (b : bool) (k : N) : N := N.shiftl (if b then 1 else 0) k.
(** connect_flags, 238-239 *)
Definition connect_flags (p : packet_connect) : N :=
  N.lor (bit (cn_clean p) 1) (N.lor (bit (cn_has_will p) 2) (N.lor (N.shiftl (cn_will_qos p) 3)
    (N.lor (bit (cn_will_retain p) 5) (N.lor (bit (cn_has_password p) 6) (bit (cn_has_username p) 7))))) mod 256.
(** aws_mqtt_packet_connect_encode, 206-283 *)
Definition connect_encode (b : buf) (p : packet_connect) : res buf :=
  if cn_has_password p && negb (cn_has_username p) then Err E_INVALID_CREDENTIALS else
  do b <- fixed_header_encode b (cn_fh p);
  do b <- (match encode_buffer b s_protocol_name with Ok b => Ok b | Err _ => Err E_SHORT_BUFFER end);
  do b <- bwrite_u8 b S_PROTOCOL_LEVEL;
  do b <- bwrite_u8 b (connect_flags p);
  do b <- bwrite_be16 b (cn_keep_alive p);
  do b <- encode_buffer b (cn_client_id p);
  do b <- (if cn_has_will p then do b <- encode_buffer b (cn_will_topic p); encode_buffer b (cn_will_message p) else Ok b);
  do b <- (if cn_has_username p then encode_buffer b (cn_username p) else Ok b);
  (if cn_has_password p then encode_buffer b (cn_password p) else Ok b).
Definition flag_bit (f k : N) : bool := N.land (N.shiftr f k) 1 =? 1.
Fixpoint beqb (a b : bytes) : bool :=
  match a, b with [], [] => true | x :: a, y :: b => (x =? y) && beqb a b | _, _ => false end.
(** aws_mqtt_packet_connect_decode, 285-381. The destination is assumed zero-initialised (as all callers do), so fields that are
    not read are empty. AWS_ASSERT at 308 is debug-only and not modelled. *)
Definition connect_decode (cur : bytes) : res (packet_connect * bytes) :=
  do (fh, cur) <- fixed_header_decode cur;
  do (name, cur) <- (match decode_buffer cur with Ok x => Ok x | Err _ => Err E_SHORT_BUFFER end);
  if negb (len name =? len s_protocol_name) then Err E_UNSUPPORTED_PROTOCOL_NAME else
  if negb (beqb name s_protocol_name) then Err E_UNSUPPORTED_PROTOCOL_NAME else
  do (level, cur) <- of_opt E_SHORT_BUFFER (read_u8 cur);
  if negb (level =? S_PROTOCOL_LEVEL) then Err E_UNSUPPORTED_PROTOCOL_LEVEL else
  do (f, cur) <- of_opt E_SHORT_BUFFER (read_u8 cur);
  let clean := flag_bit f 1 in
  let has_will := flag_bit f 2 in
  let will_qos := N.land (N.shiftr f 3) 3 in
  let will_retain := flag_bit f 5 in
  let has_password := flag_bit f 6 in
  let has_username := flag_bit f 7 in
  do (ka, cur) <- of_opt E_SHORT_BUFFER (read_be16 cur);
  do (cid, cur) <- decode_buffer cur;
  do (wt, wm, cur) <- (if has_will then do (wt, cur) <- decode_buffer cur; do (wm, cur) <- decode_buffer cur; Ok (wt, wm, cur)
                       else Ok ([], [], cur));
  do (un, cur) <- (if has_username then decode_buffer cur else Ok ([], cur));
  do (pw, cur) <- (if has_password then decode_buffer cur else Ok ([], cur));
  if has_password && negb has_username then Err E_INVALID_CREDENTIALS else
  Ok (mkconnect fh clean has_will will_retain has_password has_username ka will_qos cid wt wm un pw, cur).

(** ** Connack: init 386-402, encode 404-431, decode 433-461 *)
Record packet_connack := mkconnack { ca_fh : fixed_header; ca_session_present : bool; ca_code : N }.
Definition connack_init (sp : bool) (code : N) : packet_connack := mkconnack (mkfh PT_CONNACK 2 0) sp (code mod 256).
Definition connack_encode (b : buf) (p : packet_connack) : res buf :=
  do b <- fixed_header_encode b (ca_fh p);
  do b <- bwrite_u8 b (if ca_session_present p then 1 else 0);
  bwrite_u8 b (ca_code p).
Definition connack_decode (cur : bytes) : res (packet_connack * bytes) :=
  do (fh, cur) <- fixed_header_decode cur;
  do (f, cur) <- of_opt E_SHORT_BUFFER (read_u8 cur);
  do (code, cur) <- of_opt E_SHORT_BUFFER (read_u8 cur);
  Ok (mkconnack fh (N.land f 1 =? 1) code, cur).

(** ** Publish *)
Record packet_publish := mkpublish { pb_fh : fixed_header; pb_id : N; pb_topic : bytes; pb_payload : bytes }.
(** getters 593-607 *)
Definition publish_get_dup (p : packet_publish) : bool := negb (N.land (fh_flags (pb_fh p)) 8 =? 0).
Definition publish_get_qos (p : packet_publish) : N := N.land (N.shiftr (fh_flags (pb_fh p)) 1) 3.
Definition publish_get_retain (p : packet_publish) : bool := negb (N.land (fh_flags (pb_fh p)) 1 =? 0).
Definition publish_set_dup (p : packet_publish) : packet_publish :=
  mkpublish (mkfh (fh_type (pb_fh p)) (fh_rem (pb_fh p)) (N.lor (fh_flags (pb_fh p)) 8)) (pb_id p) (pb_topic p) (pb_payload p).
(** aws_mqtt_packet_publish_init, 466-496. AWS_FATAL_PRECONDITION(topic_name.len > 0) is the caller's obligation. *)
Definition publish_init (retain : bool) (qos : N) (dup : bool) (topic : bytes) (id : N) (payload : bytes) : packet_publish :=
  let r := add64 (sizeof_encoded_buffer topic) (len payload) in
  let r := if 0 <? qos then add64 r 2 else r in
  let flags := N.lor (bit retain 0) (N.lor (N.shiftl (N.land qos 3) 1) (bit dup 3)) mod 256 in
  mkpublish (mkfh PT_PUBLISH r flags) id topic payload.
(** aws_mqtt_packet_publish_encode_headers 514-543 *)
Definition publish_encode_headers (b : buf) (p : packet_publish) : res buf :=
  do b <- fixed_header_encode b (pb_fh p);
  do b <- encode_buffer b (pb_topic p);
  if 0 <? publish_get_qos p then bwrite_be16 b (pb_id p) else Ok b.
(** aws_mqtt_packet_publish_encode 498-512 *)
Definition publish_encode (b : buf) (p : packet_publish) : res buf :=
  do b <- publish_encode_headers b p;
  bwrite b (pb_payload p).
(** aws_mqtt_packet_publish_decode 545-591 *)
Definition publish_decode (cur : bytes) : res (packet_publish * bytes) :=
  do (fh, cur) <- fixed_header_decode cur;
  do (topic, cur) <- decode_buffer cur;
  let payload_size := sub64 (fh_rem fh) (sizeof_encoded_buffer topic) in
  let qos := N.land (N.shiftr (fh_flags fh) 1) 3 in
  if 2 <? qos then Err E_PROTOCOL_ERROR else
  do (id, payload_size, cur) <-
     (if 0 <? qos then do (id, cur) <- of_opt E_SHORT_BUFFER (read_be16 cur); Ok (id, sub64 payload_size 2, cur)
      else Ok (0, payload_size, cur));
  let (payload, cur) := advance cur payload_size in
  if negb (len payload =? payload_size) then Err E_SHORT_BUFFER else
  Ok (mkpublish fh id topic payload, cur).

(** ** Subscribe *)
Record packet_subscribe := mksubscribe { sb_fh : fixed_header; sb_id : N; sb_filters : list (bytes * N) }.
(** aws_mqtt_packet_subscribe_init 653-673, add_topic 684-703 *)
Definition subscribe_init (id : N) : packet_subscribe := mksubscribe (mkfh PT_SUBSCRIBE 2 S_BIT_1_FLAGS) id [].
Definition subscribe_add_topic (p : packet_subscribe) (filter : bytes) (qos : N) : packet_subscribe :=
  mksubscribe (set_rem (sb_fh p) (add64 (fh_rem (sb_fh p)) (sizeof_encoded_buffer filter + 1))) (sb_id p)
    (sb_filters p ++ [(filter, qos)]).
(** aws_mqtt_packet_subscribe_encode 705-743; the result of s_encode_buffer at 734 is ignored. *)
Fixpoint subscribe_encode_filters (b : buf) (l : list (bytes * N)) : res buf :=
  match l with
  | [] => Ok b
  | (filter, qos) :: l =>
    let b := fst (encode_buffer_st b filter) in
    do b <- bwrite_u8 b (N.land qos 3);
    subscribe_encode_filters b l
  end.
Definition subscribe_encode (b : buf) (p : packet_subscribe) : res buf :=
  do b <- fixed_header_encode b (sb_fh p);
  do b <- bwrite_be16 b (sb_id p);
  subscribe_encode_filters b (sb_filters p).
(** aws_mqtt_packet_subscribe_decode 745-799; loop 771-796. Each iteration consumes at least 3 bytes of the cursor, so the length
    of the cursor bounds the iterations. *)
Fixpoint subscribe_decode_loop (fuel : nat) (cur : bytes) (remaining : N) (acc : list (bytes * N)) : res (list (bytes * N) * bytes) :=
  if remaining =? 0 then Ok (acc, cur) else
  match fuel with
  | O => Err E_FUEL
  | S fuel =>
    do (filter, cur) <- decode_buffer cur;
    do (eos_byte, cur) <- of_opt E_SHORT_BUFFER (read_u8 cur);
    if negb (N.shiftr eos_byte 2 =? 0) then Err E_INVALID_RESERVED_BITS else
    if eos_byte =? 3 then Err E_INVALID_QOS else
    subscribe_decode_loop fuel cur (sub64 remaining (sizeof_encoded_buffer filter + 1)) (acc ++ [(filter, N.land eos_byte 3)])
  end.
Definition subscribe_decode (cur : bytes) : res (packet_subscribe * bytes) :=
  do (fh, cur) <- fixed_header_decode cur;
  if fh_rem fh <? 2 then Err E_INVALID_REMAINING_LENGTH else
  do (id, cur) <- of_opt E_SHORT_BUFFER (read_be16 cur);
  do (filters, cur) <- subscribe_decode_loop (S (length cur)) cur (fh_rem fh - 2) [];
  Ok (mksubscribe fh id filters, cur).

(** ** Suback *)
Record packet_suback := mksuback { sa_fh : fixed_header; sa_id : N; sa_codes : list N }.
(** s_return_code_check 833-839 *)
Definition return_code_check (c : N) : bool := (c =? 128) || (c =? 0) || (c =? 1) || (c =? 2).
(** aws_mqtt_packet_suback_init 804-822, add_return_code 841-857 *)
Definition suback_init (id : N) : packet_suback := mksuback (mkfh PT_SUBACK 2 0) id [].
Definition suback_add_return_code (p : packet_suback) (c : N) : res packet_suback :=
  if negb (return_code_check c) then Err E_PROTOCOL_ERROR else
  Ok (mksuback (set_rem (sa_fh p) (add64 (fh_rem (sa_fh p)) 1)) (sa_id p) (sa_codes p ++ [c])).
(** aws_mqtt_packet_suback_encode 859-895 *)
Fixpoint write_u8s (b : buf) (l : list N) : res buf :=
  match l with [] => Ok b | c :: l => do b <- bwrite_u8 b c; write_u8s b l end.
Definition suback_encode (b : buf) (p : packet_suback) : res buf :=
  do b <- fixed_header_encode b (sa_fh p);
  do b <- bwrite_be16 b (sa_id p);
  write_u8s b (sa_codes p).
(** aws_mqtt_packet_suback_decode 897-944; 927 subtracts without checking, hence sub64; each iteration reads one byte *)
Fixpoint suback_decode_loop (cur : bytes) (remaining : N) (acc : list N) : res (list N * bytes) :=
  if remaining =? 0 then Ok (acc, cur) else
  match cur with
  | [] => Err E_SHORT_BUFFER
  | c :: cur => if negb (return_code_check c) then Err E_PROTOCOL_ERROR else
                suback_decode_loop cur (remaining - 1) (acc ++ [c])
  end.
Definition suback_decode (cur : bytes) : res (packet_suback * bytes) :=
  do (fh, cur) <- fixed_header_decode cur;
  if negb (fh_flags fh =? required_flags (fh_type fh)) then Err E_INVALID_RESERVED_BITS else
  do (id, cur) <- of_opt E_SHORT_BUFFER (read_be16 cur);
  do (codes, cur) <- suback_decode_loop cur (sub64 (fh_rem fh) 2) [];
  Ok (mksuback fh id codes, cur).

(** ** Unsubscribe *)
Record packet_unsubscribe := mkunsubscribe { us_fh : fixed_header; us_id : N; us_filters : list bytes }.
(** aws_mqtt_packet_unsubscribe_init 949-970, add_topic 981-996 *)
Definition unsubscribe_init (id : N) : packet_unsubscribe := mkunsubscribe (mkfh PT_UNSUBSCRIBE 2 S_BIT_1_FLAGS) id [].
Definition unsubscribe_add_topic (p : packet_unsubscribe) (filter : bytes) : packet_unsubscribe :=
  mkunsubscribe (set_rem (us_fh p) (add64 (fh_rem (us_fh p)) (sizeof_encoded_buffer filter))) (us_id p) (us_filters p ++ [filter]).
(** aws_mqtt_packet_unsubscribe_encode 998-1031; the result of s_encode_buffer at 1027 is ignored. *)
Fixpoint unsubscribe_encode_filters (b : buf) (l : list bytes) : res buf :=
  match l with [] => Ok b | f :: l => unsubscribe_encode_filters (fst (encode_buffer_st b f)) l end.
Definition unsubscribe_encode (b : buf) (p : packet_unsubscribe) : res buf :=
  do b <- fixed_header_encode b (us_fh p);
  do b <- bwrite_be16 b (us_id p);
  unsubscribe_encode_filters b (us_filters p).
(** aws_mqtt_packet_unsubscribe_decode 1033-1073 *)
Fixpoint unsubscribe_decode_loop (fuel : nat) (cur : bytes) (remaining : N) (acc : list bytes) : res (list bytes * bytes) :=
  if remaining =? 0 then Ok (acc, cur) else
  match fuel with
  | O => Err E_FUEL
  | S fuel =>
    do (filter, cur) <- decode_buffer cur;
    unsubscribe_decode_loop fuel cur (sub64 remaining (sizeof_encoded_buffer filter)) (acc ++ [filter])
  end.
Definition unsubscribe_decode (cur : bytes) : res (packet_unsubscribe * bytes) :=
  do (fh, cur) <- fixed_header_decode cur;
  if fh_rem fh <? 2 then Err E_INVALID_REMAINING_LENGTH else
  do (id, cur) <- of_opt E_SHORT_BUFFER (read_be16 cur);
  do (filters, cur) <- unsubscribe_decode_loop (S (length cur)) cur (fh_rem fh - 2) [];
  Ok (mkunsubscribe fh id filters, cur).

(** ** Ping request/response, disconnect: 1088-1145; struct aws_mqtt_packet_connection is just the header *)
Definition pingreq_init : fixed_header := mkfh PT_PINGREQ 0 0.
Definition pingresp_init : fixed_header := mkfh PT_PINGRESP 0 0.
Definition disconnect_init : fixed_header := mkfh PT_DISCONNECT 0 0.
Definition connection_encode (b : buf) (p : fixed_header) : res buf := fixed_header_encode b p.
Definition connection_decode (cur : bytes) : res (fixed_header * bytes) := fixed_header_decode cur.
