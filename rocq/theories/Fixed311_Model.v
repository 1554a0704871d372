(** Model of source/fixed_header.c (MQTT 3.1.1 fixed header). *)
From Verif Require Import Base.

(** enum aws_mqtt_packet_type, include/aws/mqtt/private/fixed_header.h:12-29. A packet type is the 4 bit number. *)
Definition PT_CONNECT := 1.
Definition PT_CONNACK := 2.
Definition PT_PUBLISH := 3.
Definition PT_PUBACK := 4.
Definition PT_PUBREC := 5.
Definition PT_PUBREL := 6.
Definition PT_PUBCOMP := 7.
Definition PT_SUBSCRIBE := 8.
Definition PT_SUBACK := 9.
Definition PT_UNSUBSCRIBE := 10.
Definition PT_UNSUBACK := 11.
Definition PT_PINGREQ := 12.
Definition PT_PINGRESP := 13.
Definition PT_DISCONNECT := 14.

(** struct aws_mqtt_fixed_header, fixed_header.h:34-38 *)
Record fixed_header := mkfh { fh_type : N; fh_rem : N; fh_flags : N }.

(** s_encode_remaining_length, source/fixed_header.c:14-31. The do/while loop runs on a 64 bit size_t, hence at most
    10 iterations; the fuel is 10 and [E_FUEL] is proved unreachable. AWS_PRECONDITION(remaining_length < UINT32_MAX)
    is a debug-only check and is not modelled. *)
Fixpoint encode_remaining_length_loop (fuel : nat) (b : buf) (n : N) : res buf :=
  match fuel with
  | O => Err E_FUEL
  | S f =>
    let encoded_byte := n mod 128 in
    let n' := n / 128 in
    let encoded_byte := if n' =? 0 then encoded_byte else N.lor encoded_byte 128 in
    do b' <- bwrite_u8 b encoded_byte;
    if n' =? 0 then Ok b' else encode_remaining_length_loop f b' n'
  end.
Definition encode_remaining_length (b : buf) (n : N) : res buf := encode_remaining_length_loop 10 b n.

(** aws_mqtt311_decode_remaining_length, source/fixed_header.c:33-60. The loop reads one byte per iteration, so it is
    structural on the cursor. *)
Fixpoint decode_remaining_length_loop (cur : bytes) (multiplier acc : N) : res (N * bytes) :=
  match cur with
  | [] => Err E_SHORT_BUFFER
  | encoded_byte :: cur' =>
    let acc := acc + N.land encoded_byte 127 * multiplier in
    let multiplier := multiplier * 128 in
    if N.land encoded_byte 128 =? 0 then Ok (acc, cur')
    else if 128 * 128 * 128 <? multiplier then Err E_INVALID_REMAINING_LENGTH
    else decode_remaining_length_loop cur' multiplier acc
  end.
Definition decode_remaining_length (cur : bytes) : res (N * bytes) := decode_remaining_length_loop cur 1 0.

(** aws_mqtt_get_packet_type, source/fixed_header.c:62-64 *)
Definition get_packet_type (first_byte : N) : N := N.shiftr first_byte 4.

(** aws_mqtt_packet_has_flags, source/fixed_header.c:66-92 *)
Definition packet_has_flags (t : N) : bool :=
  (t =? PT_SUBSCRIBE) || (t =? PT_UNSUBSCRIBE) || (t =? PT_PUBLISH) || (t =? PT_PUBREL).

(** aws_mqtt_fixed_header_encode, source/fixed_header.c:94-116; the cast to uint8_t at 105 is the [mod 256]. *)
Definition fixed_header_encode (b : buf) (h : fixed_header) : res buf :=
  if negb (packet_has_flags (fh_type h)) && negb (fh_flags h =? 0) then Err E_INVALID_RESERVED_BITS else
  let byte_1 := N.lor (N.shiftl (fh_type h) 4) (N.land (fh_flags h) 15) mod 256 in
  do b <- bwrite_u8 b byte_1;
  encode_remaining_length b (fh_rem h).

(** aws_mqtt_fixed_header_decode, source/fixed_header.c:118-145 *)
Definition fixed_header_decode (cur : bytes) : res (fixed_header * bytes) :=
  match read_u8 cur with
  | None => Err E_SHORT_BUFFER
  | Some (byte_1, cur) =>
    let ptype := get_packet_type byte_1 in
    let flags := N.land byte_1 15 in
    do (rem, cur) <- decode_remaining_length cur;
    if len cur <? rem then Err E_SHORT_BUFFER else
    if negb (packet_has_flags ptype) && negb (flags =? 0) then Err E_INVALID_RESERVED_BITS else
    Ok (mkfh ptype rem flags, cur)
  end.
