(** Model of source/v5/mqtt5_decoder.c with the decoding macros of include/aws/mqtt/private/v5/mqtt5_decoder.h:199-258.
    Simplifications: allocation does not fail; the casts of cursor lengths to uint32_t are left out (a packet is shorter than 2^28 bytes:
    its length is the decoded remaining length); the packet storage structs start zeroed (..._init_from_external_storage in
    mqtt5_options_storage.c), so an absent optional field is None and a number is 0. *)
From Verif Require Import Base Mqtt5_Views TopicAlias_Model.

(** ** Variable length integers *)
Inductive vli_result := V_MORE_DATA | V_SUCCESS (value : N) (rest : bytes) | V_ERROR.
(** aws_mqtt5_decode_vli, 73-106: [n] iterations left; more_data is true when the loop ends without break *)
Fixpoint decode_vli_loop (n : nat) (cur : bytes) (value shift : N) : vli_result :=
  match n with
  | O => V_ERROR
  | S n =>
    match read_u8 cur with
    | None => V_MORE_DATA
    | Some (byte, cur) =>
      let value := N.lor value (N.shiftl (N.land byte 127) shift) in
      if negb (N.land byte 128 =? 0) then decode_vli_loop n cur value (shift + 7) else V_SUCCESS value cur
    end
  end.
Definition decode_vli (cur : bytes) : vli_result := decode_vli_loop 4 cur 0 0.
(** AWS_MQTT5_DECODE_VLI: anything but success is a failure *)
Definition read_vli (cur : bytes) : option (N * bytes) :=
  match decode_vli cur with V_SUCCESS n r => Some (n, r) | _ => None end.
(** AWS_MQTT5_DECODE_U16_PREFIX and AWS_MQTT5_DECODE_LENGTH_PREFIXED_CURSOR *)
Definition read_prefixed (cur : bytes) : option (bytes * bytes) :=
  match read_be16 cur with
  | Some (n, cur) => if len cur <? n then None else Some (advance cur n)
  | None => None
  end.
Notation "'try' p <- e1 ; e2" := (match e1 with Some p => e2 | None => None end) (at level 200, p pattern, e1 at level 100, e2 at level 200).
(** aws_mqtt5_decode_user_property, 153-171 *)
Definition read_user_property (cur : bytes) : option (user_property * bytes) :=
  try (name, cur) <- read_prefixed cur;
  try (value, cur) <- read_prefixed cur;
  Some ((name, value), cur).
(** while (cursor.len > 0) read one property, e.g. 318-322. Every property takes at least one byte, so the fuel |cursor| suffices
    ([None] for lack of fuel is proved unreachable by the exactness theorems). *)
Fixpoint read_properties {A} (read : A -> bytes -> option (A * bytes)) (fuel : nat) (v : A) (cur : bytes) : option A :=
  match cur with
  | [] => Some v
  | _ => match fuel with
         | O => None
         | S fuel => try (v, cur) <- read v cur; read_properties read fuel v cur
         end
  end.
Definition read_all {A} (read : A -> bytes -> option (A * bytes)) (v : A) (cur : bytes) : option A := read_properties read (length cur) v cur.

(** ** CONNACK *)
(** s_read_connack_property, 174-284. A second occurrence of a property overwrites the first; user properties accumulate. *)
Definition read_connack_property (v : connack) (cur : bytes) : option (connack * bytes) :=
  let '(mkconnack sp rc se rm mq ra mp ac ta rs up wa si sh ka ri sr am ad) := v in
  try (property_type, cur) <- read_u8 cur;
  match property_type with
  | 17 => try (x, cur) <- read_be32 cur; Some (mkconnack sp rc (Some x) rm mq ra mp ac ta rs up wa si sh ka ri sr am ad, cur)
  | 33 => try (x, cur) <- read_be16 cur; Some (mkconnack sp rc se (Some x) mq ra mp ac ta rs up wa si sh ka ri sr am ad, cur)
  | 36 => try (x, cur) <- read_u8 cur; Some (mkconnack sp rc se rm (Some x) ra mp ac ta rs up wa si sh ka ri sr am ad, cur)
  | 37 => try (x, cur) <- read_u8 cur; Some (mkconnack sp rc se rm mq (Some x) mp ac ta rs up wa si sh ka ri sr am ad, cur)
  | 39 => try (x, cur) <- read_be32 cur; Some (mkconnack sp rc se rm mq ra (Some x) ac ta rs up wa si sh ka ri sr am ad, cur)
  | 18 => try (x, cur) <- read_prefixed cur; Some (mkconnack sp rc se rm mq ra mp (Some x) ta rs up wa si sh ka ri sr am ad, cur)
  | 34 => try (x, cur) <- read_be16 cur; Some (mkconnack sp rc se rm mq ra mp ac (Some x) rs up wa si sh ka ri sr am ad, cur)
  | 31 => try (x, cur) <- read_prefixed cur; Some (mkconnack sp rc se rm mq ra mp ac ta (Some x) up wa si sh ka ri sr am ad, cur)
  | 40 => try (x, cur) <- read_u8 cur; Some (mkconnack sp rc se rm mq ra mp ac ta rs up (Some x) si sh ka ri sr am ad, cur)
  | 41 => try (x, cur) <- read_u8 cur; Some (mkconnack sp rc se rm mq ra mp ac ta rs up wa (Some x) sh ka ri sr am ad, cur)
  | 42 => try (x, cur) <- read_u8 cur; Some (mkconnack sp rc se rm mq ra mp ac ta rs up wa si (Some x) ka ri sr am ad, cur)
  | 19 => try (x, cur) <- read_be16 cur; Some (mkconnack sp rc se rm mq ra mp ac ta rs up wa si sh (Some x) ri sr am ad, cur)
  | 26 => try (x, cur) <- read_prefixed cur; Some (mkconnack sp rc se rm mq ra mp ac ta rs up wa si sh ka (Some x) sr am ad, cur)
  | 28 => try (x, cur) <- read_prefixed cur; Some (mkconnack sp rc se rm mq ra mp ac ta rs up wa si sh ka ri (Some x) am ad, cur)
  | 21 => try (x, cur) <- read_prefixed cur; Some (mkconnack sp rc se rm mq ra mp ac ta rs up wa si sh ka ri sr (Some x) ad, cur)
  | 22 => try (x, cur) <- read_prefixed cur; Some (mkconnack sp rc se rm mq ra mp ac ta rs up wa si sh ka ri sr am (Some x), cur)
  | 38 => try (x, cur) <- read_user_property cur; Some (mkconnack sp rc se rm mq ra mp ac ta rs (up ++ [x]) wa si sh ka ri sr am ad, cur)
  | _ => None
  end.
(** s_aws_mqtt5_decoder_decode_connack, 287-351, up to the callback *)
Definition decode_connack (first_byte remaining_length : N) (cur : bytes) : option connack :=
  if negb (N.land first_byte 15 =? 0) then None else
  if negb (remaining_length =? len cur) then None else
  try (connect_flags, cur) <- read_u8 cur;
  if negb (N.land connect_flags 254 =? 0) then None else
  let session_present := negb (N.land connect_flags 1 =? 0) in
  try (reason_code, cur) <- read_u8 cur;
  try (property_length, cur) <- read_vli cur;
  if negb (property_length =? len cur) then None else
  read_all read_connack_property
    (mkconnack session_present reason_code None None None None None None None None [] None None None None None None None None) cur.

(** ** PUBLISH *)
(** s_read_publish_property, 362-434 *)
Definition read_publish_property (v : publish) (cur : bytes) : option (publish * bytes) :=
  let '(mkpublish pl id q d r t pf me ta rt cd si ct up) := v in
  try (property_type, cur) <- read_u8 cur;
  match property_type with
  | 1 => try (x, cur) <- read_u8 cur; Some (mkpublish pl id q d r t (Some x) me ta rt cd si ct up, cur)
  | 2 => try (x, cur) <- read_be32 cur; Some (mkpublish pl id q d r t pf (Some x) ta rt cd si ct up, cur)
  | 35 => try (x, cur) <- read_be16 cur; Some (mkpublish pl id q d r t pf me (Some x) rt cd si ct up, cur)
  | 8 => try (x, cur) <- read_prefixed cur; Some (mkpublish pl id q d r t pf me ta (Some x) cd si ct up, cur)
  | 9 => try (x, cur) <- read_prefixed cur; Some (mkpublish pl id q d r t pf me ta rt (Some x) si ct up, cur)
  | 38 => try (x, cur) <- read_user_property cur; Some (mkpublish pl id q d r t pf me ta rt cd si ct (up ++ [x]), cur)
  | 11 => try (x, cur) <- read_vli cur; Some (mkpublish pl id q d r t pf me ta rt cd (si ++ [x]) ct up, cur)
  | 3 => try (x, cur) <- read_prefixed cur; Some (mkpublish pl id q d r t pf me ta rt cd si (Some x) up, cur)
  | _ => None
  end.
Definition with_payload (v : publish) (payload : bytes) : publish :=
  let '(mkpublish _ id q d r t pf me ta rt cd si ct up) := v in mkpublish payload id q d r t pf me ta rt cd si ct up.
Definition with_publish_topic (v : publish) (topic : bytes) : publish :=
  let '(mkpublish pl id q d r _ pf me ta rt cd si ct up) := v in mkpublish pl id q d r topic pf me ta rt cd si ct up.
(** s_aws_mqtt5_decoder_decode_publish, 437-504: the packet as it is on the wire *)
Definition decode_publish_view (first_byte remaining_length : N) (cur : bytes) : option publish :=
  let duplicate := negb (N.land first_byte 8 =? 0) in
  let retain := negb (N.land first_byte 1 =? 0) in
  let qos := N.land (N.shiftr first_byte 1) 3 in
  if negb (remaining_length =? len cur) then None else
  try (topic, cur) <- read_prefixed cur;
  try (packet_id, cur) <- (if 0 <? qos then read_be16 cur else Some (0, cur));
  try (property_length, cur) <- read_vli cur;
  if len cur <? property_length then None else
  let (properties, cur) := advance cur property_length in
  try v <- read_all read_publish_property (mkpublish [] packet_id qos duplicate retain topic None None None None None [] None []) properties;
  Some (with_payload v cur).
(** 506-541: topic alias resolution ([in_publish]); the result is the packet for the callback *)
Definition decode_publish (first_byte remaining_length : N) (cur : bytes) (a : in_state) : in_state * option publish :=
  match decode_publish_view first_byte remaining_length cur with
  | None => (a, None)
  | Some v => let '(a, t) := in_publish a (pb_topic v) (pb_topic_alias v) in (a, match t with Some t => Some (with_publish_topic v t) | None => None end)
  end.

(** ** PUBACK *)
(** s_read_puback_property, 564-601 *)
Definition read_puback_property (v : puback) (cur : bytes) : option (puback * bytes) :=
  let '(mkpuback id rc rs up) := v in
  try (property_type, cur) <- read_u8 cur;
  match property_type with
  | 31 => try (x, cur) <- read_prefixed cur; Some (mkpuback id rc (Some x) up, cur)
  | 38 => try (x, cur) <- read_user_property cur; Some (mkpuback id rc rs (up ++ [x]), cur)
  | _ => None
  end.
(** s_aws_mqtt5_decoder_decode_puback, 604-672 *)
Definition decode_puback (first_byte remaining_length : N) (cur : bytes) : option puback :=
  if negb (N.land first_byte 15 =? 0) then None else
  if negb (remaining_length =? len cur) then None else
  try (packet_id, cur) <- read_be16 cur;
  if negb (0 <? len cur) then Some (mkpuback packet_id 0 None []) else
  try (reason_code, cur) <- read_u8 cur;
  if negb (0 <? len cur) then Some (mkpuback packet_id reason_code None []) else
  try (property_length, cur) <- read_vli cur;
  if negb (property_length =? len cur) then None else
  read_all read_puback_property (mkpuback packet_id reason_code None []) cur.

(** ** SUBACK and UNSUBACK *)
(** s_read_suback_property, 675-712, and s_read_unsuback_property, 771-808 *)
Definition read_suback_property (v : suback) (cur : bytes) : option (suback * bytes) :=
  let '(mksuback id rs up rcs) := v in
  try (property_type, cur) <- read_u8 cur;
  match property_type with
  | 31 => try (x, cur) <- read_prefixed cur; Some (mksuback id (Some x) up rcs, cur)
  | 38 => try (x, cur) <- read_user_property cur; Some (mksuback id rs (up ++ [x]) rcs, cur)
  | _ => None
  end.
Definition with_codes (v : suback) (codes : bytes) : suback := let '(mksuback id rs up _) := v in mksuback id rs up codes.
(** s_aws_mqtt5_decoder_decode_suback, 715-768, and s_aws_mqtt5_decoder_decode_unsuback, 811-886: the same code up to the types. The flags
    are not looked at, and neither is whether the property length exceeds what is left of the packet. *)
Definition decode_suback (cur : bytes) : option suback :=
  try (packet_id, cur) <- read_be16 cur;
  try (property_length, cur) <- read_vli cur;
  let (properties, cur) := advance cur property_length in
  try v <- read_all read_suback_property (mksuback packet_id None [] []) properties;
  Some (with_codes v cur).

(** ** DISCONNECT *)
(** s_read_disconnect_property, 889-938 *)
Definition read_disconnect_property (v : disconnect) (cur : bytes) : option (disconnect * bytes) :=
  let '(mkdisconnect rc se rs up sr) := v in
  try (property_type, cur) <- read_u8 cur;
  match property_type with
  | 17 => try (x, cur) <- read_be32 cur; Some (mkdisconnect rc (Some x) rs up sr, cur)
  | 28 => try (x, cur) <- read_prefixed cur; Some (mkdisconnect rc se rs up (Some x), cur)
  | 31 => try (x, cur) <- read_prefixed cur; Some (mkdisconnect rc se (Some x) up sr, cur)
  | 38 => try (x, cur) <- read_user_property cur; Some (mkdisconnect rc se rs (up ++ [x]) sr, cur)
  | _ => None
  end.
(** s_aws_mqtt5_decoder_decode_disconnect, 941-1007 *)
Definition decode_disconnect (first_byte remaining_length : N) (cur : bytes) : option disconnect :=
  if negb (N.land first_byte 15 =? 0) then None else
  if negb (remaining_length =? len cur) then None else
  if negb (0 <? remaining_length) then Some (mkdisconnect 0 None None [] None) else
  try (reason_code, cur) <- read_u8 cur;
  if len cur =? 0 then Some (mkdisconnect reason_code None None [] None) else
  try (property_length, cur) <- read_vli cur;
  if negb (property_length =? len cur) then None else
  read_all read_disconnect_property (mkdisconnect reason_code None None [] None) cur.

(** s_aws_mqtt5_decoder_decode_pingresp, 1009-1032 *)
Definition decode_pingresp (first_byte remaining_length : N) (cur : bytes) : bool :=
  (len cur =? 0) && (first_byte =? 208) && (remaining_length =? 0).

(** s_aws_mqtt5_decoder_decode_packet, 1034-1043, with the default table 1113-1134: the packet for the callback, [None] is a failure *)
Definition decode_packet (first_byte remaining_length : N) (cur : bytes) (a : in_state) : in_state * option packet5 :=
  match N.shiftr first_byte 4 with
  | 2 => (a, option_map P_CONNACK (decode_connack first_byte remaining_length cur))
  | 3 => let '(a, v) := decode_publish first_byte remaining_length cur a in (a, option_map P_PUBLISH v)
  | 4 => (a, option_map P_PUBACK (decode_puback first_byte remaining_length cur))
  | 9 => (a, option_map P_SUBACK (decode_suback cur))
  | 11 => (a, option_map P_UNSUBACK (decode_suback cur))
  | 13 => (a, if decode_pingresp first_byte remaining_length cur then Some P_PINGRESP else None)
  | 14 => (a, option_map P_DISCONNECT (decode_disconnect first_byte remaining_length cur))
  | _ => (a, None)
  end.
(** s_is_decodable_packet_type, 34-37 *)
Definition is_decodable_packet_type (t : N) : bool := existsb (N.eqb t) [2; 3; 4; 9; 11; 13; 14].

(** ** The stream *)
(** enum aws_mqtt5_decoder_state, mqtt5_decoder.h:24-29 *)
Inductive d5_state := DS_READ_PACKET_TYPE | DS_READ_REMAINING_LENGTH | DS_READ_PACKET | DS_FATAL_ERROR.
(** struct aws_mqtt5_decoder, mqtt5_decoder.h:78-107, without the configuration, the alias resolver (in the world state below) and
    packet_cursor, which is passed along *)
Record decoder5 := mkd5 { d5_st : d5_state; d5_scratch : bytes; d5_first : N; d5_rl : N }.
Inductive drt := DRT_MORE_DATA | DRT_SUCCESS | DRT_ERROR.

Section Decoder.
(** The world: the inbound topic alias resolver and everything else the on_packet_received callback touches. The callback may
    also replace the resolver (the client does so on CONNACK, mqtt5_client.c:3088-3102) and may fail. *)
Variable H : Type.
Variable callback : packet5 -> in_state * H -> (in_state * H) * bool.

(** a per packet decoding function up to and including its callback *)
Definition handle_packet (first_byte remaining_length : N) (cur : bytes) (w : in_state * H) : (in_state * H) * bool :=
  match decode_packet first_byte remaining_length cur (fst w) with
  | (a, Some p) => callback p (a, snd w)
  | (a, None) => ((a, snd w), false)
  end.

(** s_reset_decoder_for_new_packet 16-22, aws_mqtt5_decoder_init 1139-1161, aws_mqtt5_decoder_reset 1163-1167 *)
Definition d5_init : decoder5 := mkd5 DS_READ_PACKET_TYPE [] 0 0.
Definition d5_reset (d : decoder5) : decoder5 := mkd5 DS_READ_PACKET_TYPE [] 0 0.
(** s_enter_state, 24-32 *)
Definition d5_enter (d : decoder5) (s : d5_state) : decoder5 :=
  match s with DS_READ_PACKET_TYPE => mkd5 s [] 0 0 | _ => mkd5 s [] (d5_first d) (d5_rl d) end.
(** s_aws_mqtt5_decoder_read_packet_type_on_data, 42-68 *)
Definition read_packet_type_on_data (d : decoder5) (data : bytes) : decoder5 * bytes * drt :=
  match data with
  | [] => (d, data, DRT_MORE_DATA)
  | byte :: data =>
    let d := mkd5 (d5_st d) (d5_scratch d ++ [byte]) (d5_first d) (d5_rl d) in
    if negb (is_decodable_packet_type (N.shiftr byte 4)) then (d, data, DRT_ERROR) else
    (d5_enter (mkd5 (d5_st d) (d5_scratch d) byte (d5_rl d)) DS_READ_REMAINING_LENGTH, data, DRT_SUCCESS)
  end.
(** s_aws_mqtt5_decoder_read_vli_on_data, 109-133 (the loop takes one byte per iteration), then
    s_aws_mqtt5_decoder_read_remaining_length_on_data, 136-150 *)
Fixpoint read_remaining_length_on_data (d : decoder5) (data : bytes) : decoder5 * bytes * drt :=
  match data with
  | [] => (d, data, DRT_MORE_DATA)
  | byte :: data =>
    let d := mkd5 (d5_st d) (d5_scratch d ++ [byte]) (d5_first d) (d5_rl d) in
    match decode_vli (d5_scratch d) with
    | V_MORE_DATA => read_remaining_length_on_data d data
    | V_ERROR => (d, data, DRT_ERROR)
    | V_SUCCESS n _ => (d5_enter (mkd5 (d5_st d) (d5_scratch d) (d5_first d) n) DS_READ_PACKET, data, DRT_SUCCESS)
    end
  end.
(** s_aws_mqtt5_decoder_read_packet_on_data, 1051-1085 *)
Definition read_packet_on_data (d : decoder5) (data : bytes) (w : in_state * H) : decoder5 * bytes * (in_state * H) * drt :=
  let run (d : decoder5) (packet data : bytes) :=
    let '(w, ok) := handle_packet (d5_first d) (d5_rl d) packet w in
    if ok then (d5_enter d DS_READ_PACKET_TYPE, data, w, DRT_SUCCESS) else (d, data, w, DRT_ERROR) in
  if (len (d5_scratch d) =? 0) && (d5_rl d <=? len data) then
    let (packet, data) := advance data (d5_rl d) in run d packet data
  else
    let unread_length := d5_rl d - len (d5_scratch d) in
    let copy_length := N.min unread_length (len data) in
    let (copy, data) := advance data copy_length in
    let d := mkd5 (d5_st d) (d5_scratch d ++ copy) (d5_first d) (d5_rl d) in
    if copy_length <? unread_length then (d, data, w, DRT_MORE_DATA) else run d (d5_scratch d) data.
(** aws_mqtt5_decoder_on_data_received, 1088-1117. [DR_FUEL] is proved unreachable. *)
Inductive d5_result := DR_SUCCESS | DR_ERROR | DR_FUEL.
Fixpoint d5_loop (fuel : nat) (d : decoder5) (data : bytes) (w : in_state * H) : decoder5 * (in_state * H) * d5_result :=
  match fuel with
  | O => (d, w, DR_FUEL)
  | S fuel =>
    let '(d, data, w, r) :=
      match d5_st d with
      | DS_READ_PACKET_TYPE => let '(d, data, r) := read_packet_type_on_data d data in (d, data, w, r)
      | DS_READ_REMAINING_LENGTH => let '(d, data, r) := read_remaining_length_on_data d data in (d, data, w, r)
      | DS_READ_PACKET => read_packet_on_data d data w
      | DS_FATAL_ERROR => (d, data, w, DRT_ERROR)
      end in
    match r with
    | DRT_SUCCESS => d5_loop fuel d data w
    | DRT_MORE_DATA => (d, w, DR_SUCCESS)
    | DRT_ERROR => (mkd5 DS_FATAL_ERROR (d5_scratch d) (d5_first d) (d5_rl d), w, DR_ERROR)
    end
  end.
Definition d5_on_data (d : decoder5) (data : bytes) (w : in_state * H) : decoder5 * (in_state * H) * d5_result :=
  d5_loop (3 * length data + 4) d data w.

(** A history of one decoder: data, or aws_mqtt5_decoder_reset for a new connection, with what the client does to the world at that point *)
Inductive d5_op := Feed5 (data : bytes) | NewConnection5 (f : in_state * H -> in_state * H).
Fixpoint d5_history (d : decoder5) (ops : list d5_op) (w : in_state * H) : decoder5 * (in_state * H) * list d5_result :=
  match ops with
  | [] => (d, w, [])
  | NewConnection5 f :: ops => d5_history (d5_reset d) ops (f w)
  | Feed5 c :: ops =>
    let '(d, w, r) := d5_on_data d c w in
    let '(d, w, rs) := d5_history d ops w in
    (d, w, r :: rs)
  end.
(** data on the wire are bytes *)
Definition op5_ok (o : d5_op) : Prop := match o with Feed5 c => bytes_ok c | NewConnection5 _ => True end.
Definition d5_calls (d : decoder5) (chunks : list bytes) (w : in_state * H) := d5_history d (map Feed5 chunks) w.
End Decoder.
